(* Classification under renaming of labels: the pages of examples and the confusion matrix
   with examples. *)
From Verif Require Import Prelude PageSpec Counting CacheModel CacheSpec ClsModel ClsSpec ClsLabelProofs ClsProofs ClsConfProofs RocModel
  FlowModel FlowProofs FlowMore ClsLemmas ClsMore ClsFilterModel ClsFilterSpec ClsFilterProofs ClsFilterCounts
  ClsPageModel ClsPageSpec ClsPageProofs ClsCellModel ClsCellSpec ClsCellProofs ClsRenameSpec ClsRenameProofs.
From Coq Require Import String.
Local Notation length := List.length (only parsing).
Local Notation concat := List.concat (only parsing).
Local Open Scope nat_scope.
Local Open Scope list_scope.

Section Examples.
  Variables h f : string -> string.
  Variable cs : list classification.
  Local Notation cs' := (map (crename h f) cs).
  Local Notation L := (labels_of cs).
  Hypothesis Hf : names_apart f L.
  Hypothesis Hdis : Forall distinct_candidates cs.
  Variables u u' : cview.
  Hypothesis Hu : renamed_view h f cs u u'.

  Lemma gt_in c : In c cs -> In (c_groundtruth c) L.
  Proof.
    intros Hc. unfold labels_of. apply first_appearance_In. right. apply in_concat. exists (datum_labels c).
    split; [apply in_map_iff; exists c; auto|left; reflexivity].
  Qed.
  Lemma listed_crename pos thr c : In c cs -> incl pos L -> listed cs' (map f pos) thr (crename h f c) = rename_example h f (listed cs pos thr c).
  Proof.
    intros Hc Hp. unfold listed, rename_example. cbn [nx_uid nx_thr nx_tp nx_fn nx_fp crename c_uid c_groundtruth].
    rewrite (apart_smem f L _ _ Hf (gt_in c Hc) Hp). rewrite (labels_crename h f cs Hf).
    f_equal; try (destruct (smem (c_groundtruth c) pos); reflexivity).
    rewrite (filter_map_on f _ (fun l => smem l pos && negb (String.eqb l (c_groundtruth c)))); [rewrite !map_map; reflexivity|].
    intros l Hl. rewrite (apart_smem f L _ _ Hf Hl Hp), (apart_eqb f L l _ Hf Hl (gt_in c Hc)). reflexivity.
  Qed.
  Lemma entries_crename tol9 hm thrs c : In c cs -> datum_entries cs' u' tol9 hm thrs (crename h f c) = map (rename_example h f) (datum_entries cs u tol9 hm thrs c).
  Proof.
    intros Hc. unfold datum_entries. rewrite map_map. apply map_ext. intros kt.
    rewrite (vpositives_crename h f cs u u' Hu _ _ c Hc). apply listed_crename; [exact Hc|]. apply (vpositives_incl cs); assumption.
  Qed.
  Lemma score_crename p c : In c cs -> In p L -> score_of (f p) (crename h f c) = score_of p c.
  Proof.
    intros Hc Hp. unfold score_of. rewrite candidates_crename. assert (H : forall x, In x (candidates c) -> In (fst x) L).
    { intros (l, z) Hx. apply (pred_in cs c l Hc). unfold candidates in Hx. apply in_combine_l in Hx. exact Hx. }
    induction (candidates c) as [|x t IH]; [reflexivity|]. cbn [map find]. cbn [rn fst].
    rewrite (apart_eqb f L (fst x) p Hf (H x (or_introl eq_refl)) Hp). destruct (String.eqb (fst x) p); [reflexivity|].
    apply IH. intros y Hy. apply H. right. exact Hy.
  Qed.
End Examples.

Section Reports.
  Variables h f : string -> string.
  Variable cs : list classification.
  Local Notation cs' := (map (crename h f) cs).
  Local Notation L := (labels_of cs).
  Hypothesis Hf : names_apart f L.
  Hypothesis Hdis : Forall distinct_candidates cs.
  Variables w w' : cview.
  Hypothesis Hw : renamed_view h f cs w w'.
  Variables e e' : ceval.
  Hypothesis He : cls_evaluator cs w e.
  Hypothesis He' : cls_evaluator cs' w' e'.
  Variables (tol9 : Z) (hm : bool) (thrs : list Z) (d d' : crow -> bool) (sel sel' : cview).
  Hypothesis Hd : expresses cs d sel.
  Hypothesis Hd' : expresses cs' d' sel'.
  Hypothesis Hs : renamed_view h f cs sel sel'.
  Local Notation u := (cselect w sel).
  Local Notation u' := (cselect w' sel').
  Lemma Hu : renamed_view h f cs u u'.
  Proof. apply cselect_crename; assumption. Qed.
  Lemma page_of_map {A B} (q : A -> B) limit offset l : page_of limit offset (map q l) = map q (page_of limit offset l).
  Proof. unfold page_of. destruct limit as [[|n]|]; rewrite ?skipn_map, ?firstn_map; reflexivity. Qed.
  Lemma page_of_In {A} limit offset (l : list A) x : In x (page_of limit offset l) -> In x l.
  Proof.
    intros Hx. unfold page_of in Hx. destruct limit as [[|n]|]; [|rewrite <- (firstn_skipn offset), in_app_iff, <- (firstn_skipn (S n) (skipn offset _)), in_app_iff; auto|];
      rewrite <- (firstn_skipn offset); apply in_or_app; right; exact Hx.
  Qed.
  Theorem renamed_examples limit offset : few_labels cs ->
    cls_examples tol9 hm thrs d' limit offset e' = option_map (map (rename_example h f)) (cls_examples tol9 hm thrs d limit offset e).
  Proof.
    intros Hfew. destruct thrs as [|t0 ts] eqn:E; [reflexivity|]. rewrite <- E. assert (Ht : thrs <> []) by (rewrite E; discriminate).
    rewrite (cls_examples_page cs w e d sel He Hfew Hdis Hd tol9 hm thrs limit offset Ht).
    rewrite (cls_examples_page cs' w' e' d' sel' He' (few_crename h f cs Hf Hfew) (distinct_crename h f cs Hf Hdis) Hd' tol9 hm thrs limit offset Ht).
    cbn [option_map]. f_equal. rewrite concat_map, map_map.
    rewrite (filter_map_on (crename h f) _ (visible u)) by (intros c Hc; apply (visible_crename h f cs u u' Hu c Hc)). rewrite page_of_map, map_map. f_equal.
    apply map_ext_in. intros c Hc. apply page_of_In in Hc. apply filter_In in Hc. apply (entries_crename h f cs Hf u u' Hu tol9 hm thrs c (proj1 Hc)).
  Qed.
  Lemma nil_map (m : list string) : match map f m with [] => true | _ => false end = match m with [] => true | _ => false end.
  Proof. destruct m; reflexivity. Qed.
  Theorem renamed_matrix : thrs <> [] ->
    exists o o', cls_confusion_examples tol9 hm thrs d e = Some o /\ cls_confusion_examples tol9 hm thrs d' e' = Some o' /\
    map fst o = thrs /\ map fst o' = thrs /\
    forall k x x', nth_error o k = Some x -> nth_error o' k = Some x' -> exists M M', snd x = Some M /\ snd x' = Some M' /\
      (forall g p, In g L -> In p L -> cell_at M' (f g) (f p) = option_map (rename_cell h) (cell_at M g p) /\ exists n, cell_at M g p = Some n) /\
      (forall g, In g L -> sget (cx_unmatched M') (f g) = option_map (rename_unmatched h) (sget (cx_unmatched M) g) /\ exists n, sget (cx_unmatched M) g = Some n).
  Proof.
    intros Ht. pose proof (distinct_crename h f cs Hf Hdis) as Hdis'.
    rewrite (cls_confusion_examples_meaning cs w e d sel tol9 hm thrs He Hdis Hd Ht).
    rewrite (cls_confusion_examples_meaning cs' w' e' d' sel' tol9 hm thrs He' Hdis' Hd' Ht).
    do 2 eexists. split; [reflexivity|]. split; [reflexivity|].
    assert (C : forall (F : nat * Z -> option cmx), map fst (map (fun kt => (snd kt, F kt)) (combine (seq 0 (length thrs)) thrs)) = thrs).
    { intros F. rewrite map_map. cbn [fst]. generalize 0. induction thrs as [|t l IH]; intros n; [reflexivity|]. cbn. f_equal. destruct l; [reflexivity|]. apply IH. discriminate. }
    split; [apply C|]. split; [apply C|]. intros k x x' Hx Hx'. rewrite nth_error_map in Hx, Hx'.
    destruct (nth_error (combine (seq 0 (length thrs)) thrs) k) as [kt|]; [|discriminate]. cbn [option_map] in Hx, Hx'. injection Hx as <-. injection Hx' as <-. cbn [snd].
    do 2 eexists. split; [reflexivity|]. split; [reflexivity|].
    assert (N : forall l, In l L -> smem l (map snd (ce_labels e)) = true /\ smem (f l) (map snd (ce_labels e')) = true).
    { intros l Hl. rewrite (smem_names cs w e l He Hdis), (smem_names cs' w' e' (f l) He' Hdis'). rewrite (labels_crename h f cs Hf). split; apply smem_In; [exact Hl|apply in_map; exact Hl]. }
    split.
    - intros g p Hg Hp. destruct (N g Hg) as (A & A'). destruct (N p Hp) as (B & B'). rewrite !cell_at_of, A, A', B, B'. cbn [andb]. split; [|eauto]. cbn [option_map]. f_equal.
      rewrite (filter_map_on (crename h f) _ (fun c => String.eqb (c_groundtruth c) g && smem p (vpositives u hm (pass_cm tol9 (firstn (S (fst kt)) thrs)) c))).
      + unfold counted, rename_cell. cbn [fst snd]. rewrite !map_length, !map_map. f_equal. apply map_ext_in. intros c Hc. apply filter_In in Hc. rewrite (score_crename h f cs Hf p c (proj1 Hc) Hp). reflexivity.
      + intros c Hc. rewrite (has_positive_crename h f cs Hf u u' Hu hm _ c p Hc Hp). f_equal. apply (gt_crename h f cs Hf c g Hc Hg).
    - intros g Hg. destruct (N g Hg) as (A & A'). rewrite !unmatched_of, A, A'. split; [|eauto]. cbn [option_map]. f_equal.
      rewrite (filter_map_on (crename h f) _ (fun c => visible u c && (String.eqb (c_groundtruth c) g && match vpositives u hm (pass_cm tol9 (firstn (S (fst kt)) thrs)) c with [] => true | _ => false end))).
      + unfold counted, rename_unmatched. cbn [fst snd]. rewrite !map_length, !map_map. reflexivity.
      + intros c Hc. rewrite (visible_crename h f cs u u' Hu c Hc), (gt_crename h f cs Hf c g Hc Hg), (vpositives_crename h f cs u u' Hu hm _ c Hc).
        do 2 f_equal. apply nil_map.
  Qed.
End Reports.
