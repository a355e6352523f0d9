(* The pages of examples and the confusion matrix with examples of a filtered classification
   cache that is loaded without its labels. *)
From Verif Require Import Prelude PageSpec CacheModel CacheSpec PaginateProofs PageLemmas CacheProofs Counting ClsModel ClsSpec ClsLabelProofs ClsProofs
  ClsConfProofs ClsLemmas ClsMore ClsExampleProofs RocModel FlowModel FlowProofs FlowMore ClsFilterModel ClsFilterSpec ClsFilterProofs ClsFilterCounts ClsFilterMain
  DetFilterProofs DetLocalProofs ClsReportProofs ClsPageModel ClsPageSpec ClsPageProofs ClsCellModel ClsCellSpec ClsCellProofs ClsArrayMain.
From Coq Require Import String Lia.
Local Open Scope nat_scope.
Local Open Scope list_scope.

Lemma filter_same {A} (f g : A -> bool) l : (forall x, In x l -> f x = g x) -> filter f l = filter g l.
Proof. induction l as [|a l IH]; intros H; [reflexivity|]. cbn. rewrite (H a) by (left; reflexivity). rewrite IH by (intros; apply H; right; assumption). reflexivity. Qed.

Section Labels.
  (* two dictionaries that agree on the labels of the rows *)
  Variables (D A : dict) (ts : list (list crow)).
  Hypothesis Hgt : forall r, In r (List.concat ts) -> dict_get D (r_gt r) = dict_get A (r_gt r).
  Hypothesis Hpd : forall r, In r (List.concat ts) -> dict_get D (r_pd r) = dict_get A (r_pd r).

  Lemma named_same m rows d thr : (forall r, In r rows -> In r (List.concat ts)) -> named_examples D m rows d thr = named_examples A m rows d thr.
  Proof.
    intros Hr. unfold named_examples.
    assert (E1 : forall P, map (fun k : Z * Z * Z => dict_get D (snd (fst k))) (isort zzz_leb (dkeys zzz_dec key3 P rows))
        = map (fun k => dict_get A (snd (fst k))) (isort zzz_leb (dkeys zzz_dec key3 P rows))).
    { intros P. apply map_ext_in. intros k Hk. apply isort_In_iff, dkeys_In in Hk. destruct Hk as (r & H & _ & <-). unfold key3. cbn [fst snd]. apply Hgt, Hr, H. }
    assert (E2 : forall P, map (fun k : Z * Z => dict_get D (snd k)) (isort zz_leb (dkeys zz_dec (fun r => (r_datum r, r_pd r)) P rows))
        = map (fun k => dict_get A (snd k)) (isort zz_leb (dkeys zz_dec (fun r => (r_datum r, r_pd r)) P rows))).
    { intros P. apply map_ext_in. intros k Hk. apply isort_In_iff, dkeys_In in Hk. destruct Hk as (r & H & _ & <-). cbn [fst snd]. apply Hpd, Hr, H. }
    assert (E3 : forall P, map (fun k : Z * Z => dict_get D (snd k)) (isort zz_leb (dkeys zz_dec key2 P rows))
        = map (fun k => dict_get A (snd k)) (isort zz_leb (dkeys zz_dec key2 P rows))).
    { intros P. apply map_ext_in. intros k Hk. apply isort_In_iff, dkeys_In in Hk. destruct Hk as (r & H & _ & <-). unfold key2. cbn [fst snd]. apply Hgt, Hr, H. }
    rewrite E1, E2, E3. reflexivity.
  Qed.
  Lemma cell_same m rows g p l : (forall r, In r rows -> In r (List.concat ts)) -> (forall k, In k l -> exists r, In r rows /\ key3 r = k) ->
    for_cell D m rows g p l = for_cell A m rows g p l.
  Proof.
    intros Hr Hl. unfold for_cell. f_equal. apply filter_same. intros k Hk. destruct (Hl k Hk) as (r & H & <-). unfold key3. cbn [fst snd]. rewrite (Hgt r), (Hpd r) by auto. reflexivity.
  Qed.
  Lemma unmatched_same rows g l : (forall r, In r rows -> In r (List.concat ts)) -> (forall k, In k l -> exists r, In r rows /\ key2 r = k) ->
    for_unmatched D rows g l = for_unmatched A rows g l.
  Proof.
    intros Hr Hl. unfold for_unmatched. f_equal. apply filter_same. intros k Hk. destruct (Hl k Hk) as (r & H & <-). unfold key2. cbn [fst snd]. rewrite (Hgt r) by auto. reflexivity.
  Qed.
End Labels.

Section Left.
  Variable cs : list classification.
  Variables (w : cview) (e : ceval).
  Hypothesis He : cls_evaluator cs w e.
  Hypothesis Hdist : Forall distinct_candidates cs.
  Notation L := (labels_of cs).
  Notation D := (extract_labels (ce_tables e)).
  Notation A := (ce_labels e).
  Variable loaded : ceval.
  Hypothesis Htab : ce_tables loaded = ce_tables e.
  Hypothesis Hlab : ce_labels loaded = D.
  Notation R := (labels_of (reduced w cs)).

  Lemma left_entry k v : In (k, v) D <-> In v R /\ k = idx L v.
  Proof.
    destruct (ev_sound cs Hdist w e He) as ((ND & S) & _). split.
    - intros H. destruct (S k v H) as (_ & Hv). assert (K : In k (map fst D)) by (apply in_map_iff; exists (k, v); auto).
      apply (ev_extracted cs Hdist w e He) in K. destruct K as (l & Hl & ->).
      assert (HL : In l L) by (apply (reduced_labels_sub w cs l (ev_acc cs w e He) Hl)). rewrite (idx_nth L l HL) in Hv. injection Hv as <-. auto.
    - intros (Hv & ->). assert (K : In (idx L v) (map fst D)) by (apply (ev_extracted cs Hdist w e He); eauto).
      apply in_map_iff in K. destruct K as ([k v'] & E & K). cbn [fst] in E. subst k. destruct (S _ _ K) as (_ & H').
      assert (HL : In v L) by (apply (reduced_labels_sub w cs v (ev_acc cs w e He) Hv)). rewrite (idx_nth L v HL) in H'. injection H' as <-. exact K.
  Qed.
  Lemma left_get v : In v R -> dict_get D (idx L v) = Some v.
  Proof.
    intros Hv. destruct (ev_sound cs Hdist w e He) as ((ND & _) & _). assert (I : In (idx L v, v) D) by (apply left_entry; auto).
    clear - ND I. induction D as [|[k x] l IH]; [destruct I|]. cbn [dict_get map fst] in *. inversion ND; subst.
    destruct (Z.eqb_spec (idx (labels_of cs) v) k) as [E|N]; destruct I as [I|I].
    - congruence.
    - subst k. destruct H1. apply (in_map fst) in I. exact I.
    - congruence.
    - apply IH; assumption.
  Qed.
  Lemma left_names_NoDup : NoDup (map snd D).
  Proof.
    destruct (ev_sound cs Hdist w e He) as ((ND & _) & _).
    assert (S : forall k v, In (k, v) D -> k = idx L v) by (intros k v H; apply left_entry in H; tauto).
    clear - ND S. induction D as [|[k v] l IH]; [constructor|]. cbn [map fst snd] in *. inversion ND; subst. constructor.
    - intros H. apply in_map_iff in H. destruct H as ([k' v'] & E & H). cbn [snd] in E. subst v'.
      assert (k' = k) by (rewrite (S k' v (or_intror H)), (S k v (or_introl eq_refl)); reflexivity). subst k'. apply H1. apply (in_map fst) in H. exact H.
    - apply IH; [assumption|]. intros k' v' H. apply S. right. exact H.
  Qed.
  Lemma left_names_In v : In v (map snd D) <-> In v R.
  Proof.
    rewrite in_map_iff. split.
    - intros ([k x] & <- & H). apply left_entry in H. tauto.
    - intros H. exists (idx L v, v). split; [reflexivity|]. apply left_entry. auto.
  Qed.
  Lemma row_left r : In r (List.concat (ce_tables e)) -> exists g p, In g R /\ In p R /\ r_gt r = idx L g /\ r_pd r = idx L p.
  Proof.
    intros Hr. destruct (ev_sound cs Hdist w e He) as (_ & K).
    assert (G : In (r_gt r) (map fst D)) by (apply K; left; apply in_map, Hr). assert (P : In (r_pd r) (map fst D)) by (apply K; right; apply in_map, Hr).
    apply (ev_extracted cs Hdist w e He) in G, P. destruct G as (g & Hg & Eg). destruct P as (p & Hp & Ep). exists g, p. auto.
  Qed.
  Lemma left_agree v : In v R -> dict_get D (idx L v) = dict_get A (idx L v).
  Proof. intros Hv. rewrite (left_get v Hv). symmetry. apply (name_of cs w e He Hdist v). apply (reduced_labels_sub w cs v (ev_acc cs w e He) Hv). Qed.
  Lemma left_gt r : In r (List.concat (ce_tables e)) -> dict_get D (r_gt r) = dict_get A (r_gt r).
  Proof. intros Hr. destruct (row_left r Hr) as (g & p & Hg & _ & -> & _). apply left_agree, Hg. Qed.
  Lemma left_pd r : In r (List.concat (ce_tables e)) -> dict_get D (r_pd r) = dict_get A (r_pd r).
  Proof. intros Hr. destruct (row_left r Hr) as (g & p & _ & Hp & _ & ->). apply left_agree, Hp. Qed.

  Theorem loaded_examples tol9 hm thrs datums limit offset : cls_examples tol9 hm thrs datums limit offset loaded = cls_examples tol9 hm thrs datums limit offset e.
  Proof.
    unfold cls_examples. destruct thrs as [|t0 tl]; [reflexivity|]. rewrite Htab, Hlab. f_equal. f_equal. apply map_ext_in. intros t Ht.
    apply (paginate_tables r_datum) in Ht. destruct Ht as (t1 & P & Ht & ->). f_equal. apply map_ext. intros d. apply map_ext. intros mt.
    apply (named_same D A (ce_tables e) left_gt left_pd). intros r Hr. apply filter_In in Hr. destruct Hr as (Hr & _). apply filter_In in Hr. apply in_concat. exists t1. tauto.
  Qed.

  Section Matrix.
    Variables (datums : crow -> bool) (sel : cview).
    Hypothesis Hsel : expresses cs datums sel.
    Variables (hm : bool) (pass : Z -> bool) (m : crow -> bool).
    Notation u := (cselect w sel).
    Hypothesis Hm : forall r, m r = pass (r_score r) && (if hm then r_winner r else true).
    Notation names := (map snd D).
    Lemma loaded_cmx : cls_cmx datums loaded m = Some (cmx_of names u hm pass cs).
    Proof.
      assert (F : forall tl f h, (forall t, In t tl -> In t (ce_tables e)) ->
        fold_left (fun o t => obind o (fun M => cmx_table D m M (filter datums t))) tl (Some (shaped names f h))
        = Some (shaped names (fun g p => f g p ++ List.concat (map (fun t => for_cell A m t g p (unique_matches m t)) (map (filter datums) tl)))
            (fun g => h g ++ List.concat (map (fun t => for_unmatched A t g (unique_unmatched m t)) (map (filter datums) tl))))).
      { induction tl as [|t tl IH]; intros f h Hin.
        - cbn. f_equal. apply shaped_ext; intros; rewrite app_nil_r; reflexivity.
        - assert (I : forall r, In r (filter datums t) -> In r (List.concat (ce_tables e))).
          { intros r Hr. apply filter_In in Hr. apply in_concat. exists t. split; [apply Hin; left; reflexivity|tauto]. }
          assert (K3 : forall k, In k (unique_matches m (filter datums t)) -> exists r, In r (filter datums t) /\ key3 r = k).
          { intros k Hk. unfold unique_matches in Hk. apply isort_In_iff, dkeys_In in Hk. destruct Hk as (r & Hr & _ & <-). eauto. }
          assert (K2 : forall k, In k (unique_unmatched m (filter datums t)) -> exists r, In r (filter datums t) /\ key2 r = k).
          { intros k Hk. unfold unique_unmatched in Hk. apply isort_In_iff, dkeys_In in Hk. destruct Hk as (r & Hr & _ & <-). eauto. }
          cbn [fold_left obind]. rewrite (cmx_table_shape names left_names_NoDup D m (filter datums t)).
          + rewrite IH by (intros; apply Hin; right; assumption). f_equal. apply shaped_ext; intros; cbn [map List.concat]; rewrite <- app_assoc; f_equal; f_equal.
            * apply (cell_same D A (ce_tables e) left_gt left_pd); assumption.
            * apply (unmatched_same D A (ce_tables e) left_gt); assumption.
          + intros k Hk. destruct (K3 k Hk) as (r & Hr & <-). destruct (row_left r (I r Hr)) as (g & p & Hg & Hp & E1 & E2). exists g, p.
            unfold key3. cbn [fst snd]. rewrite E1, E2, !left_get, !left_names_In by assumption. auto.
          + intros k Hk. destruct (K2 k Hk) as (r & Hr & <-). destruct (row_left r (I r Hr)) as (g & p & Hg & Hp & E1 & E2). exists g.
            unfold key2. cbn [snd]. rewrite E1, left_get, left_names_In by assumption. auto. }
      unfold cls_cmx. rewrite Htab, Hlab. change (empty_cmx names) with (shaped names (fun _ _ => []) (fun _ => [])).
      rewrite F by auto. f_equal. unfold cmx_of.
      assert (Sub : forall v, In v names -> In v L) by (intros v Hv; apply left_names_In in Hv; apply (reduced_labels_sub w cs v (ev_acc cs w e He) Hv)).
      apply (shaped_ext names _ _ _ _); intros; cbn [app].
      - apply (cell_list cs w e datums sel He Hdist Hsel hm pass m Hm); auto.
      - apply (unmatched_list cs w e datums sel He Hdist Hsel hm pass m Hm); auto.
    Qed.
  End Matrix.

  Theorem loaded_confusion datums sel tol9 hm thrs : expresses cs datums sel -> thrs <> [] ->
    cls_confusion_examples tol9 hm thrs datums loaded
    = Some (map (fun kt => (snd kt, Some (cmx_of (map snd D) (cselect w sel) hm (pass_cm tol9 (firstn (S (fst kt)) thrs)) cs)))
        (combine (seq 0 (List.length thrs)) thrs)).
  Proof.
    intros Hs Hn. unfold cls_confusion_examples. destruct thrs as [|t0 tl] eqn:E; [congruence|]. rewrite <- E. clear Hn. f_equal.
    apply nth_error_ext. intros k. rewrite !nth_error_map. destruct (nth_error thrs k) as [thr|] eqn:Ek.
    - destruct (masks_nth tol9 hm thrs k thr Ek) as (m & Em & Hm). rewrite (nth_error_combine _ _ _ _ _ Em Ek).
      assert (Es : nth_error (seq 0 (List.length thrs)) k = Some k).
      { assert (k < List.length thrs) by (apply nth_error_Some; congruence). apply nth_error_seq_lt. exact H. }
      rewrite (nth_error_combine _ _ _ _ _ Es Ek). cbn [option_map fst snd]. f_equal. f_equal.
      apply (loaded_cmx datums sel Hs hm _ m Hm).
    - assert (Hk : List.length thrs <= k) by (apply nth_error_None; exact Ek).
      rewrite !(proj2 (nth_error_None _ _)); [reflexivity| |]; rewrite combine_length; lia.
  Qed.
End Left.

(* ---------------------------------------------------------------- loading without labels *)
Section File.
  Variable cs : list classification.
  Hypothesis Hdist : Forall distinct_candidates cs.
  Variables w sel sg sp : cview.
  Variable e : ceval.
  Hypothesis He : cls_evaluator cs w e.
  Variable datums : crow -> bool.
  Variables gts pds : option (crow -> bool).
  Hypothesis H1 : expresses cs datums sel.
  Hypothesis H2 : opt_expresses cs gts sg.
  Hypothesis H3 : opt_expresses cs pds sp.
  Variables (bs rpf : nat) (rb : list irow -> list (list irow)) (b : fbuilder) (labels : dict) (rows : dir crow) (curve : dir cpoint).
  Hypothesis Hb : batching_ok rb.
  Hypothesis Hf : cls_filter_build bs rpf rb e datums gts pds = (b, Done labels).
  Hypothesis Hr : Permutation rows (f_dir (fb_writer b)).
  Hypothesis Hc : Permutation curve (f_dir (fb_curve b)).
  Notation u := (crestrict w sel sg sp).
  Notation e2 := (cls_load rows curve None).
  Let V := load_view cs w sel sg sp e He datums gts pds H1 H2 H3 bs rpf rb b labels rows curve Hb Hf Hr Hc.

  Theorem cls_file_examples tol9 hm thrs limit offset chosen sel' : few_labels cs -> expresses cs chosen sel' -> thrs <> [] ->
    cls_examples tol9 hm thrs chosen limit offset e2
    = Some (List.concat (map (datum_entries cs (cselect u sel') tol9 hm thrs) (page_of limit offset (filter (visible (cselect u sel')) cs)))).
  Proof.
    intros Hfew Hs Hn. destruct V as (He1 & ET & EL). rewrite (loaded_examples cs u (ce_file b labels) He1 Hdist e2 ET EL).
    exact (cls_examples_page cs u (ce_file b labels) chosen sel' He1 Hfew Hdist Hs tol9 hm thrs limit offset Hn).
  Qed.
  Theorem cls_file_matrix :
    NoDup (map snd (ce_labels e2)) /\ (forall l, In l (map snd (ce_labels e2)) <-> In l (labels_of (reduced u cs))) /\
    forall tol9 hm thrs chosen sel', expresses cs chosen sel' -> thrs <> [] ->
    cls_confusion_examples tol9 hm thrs chosen e2
    = Some (map (fun kt => (snd kt, Some (cmx_of (map snd (ce_labels e2)) (cselect u sel') hm (pass_cm tol9 (firstn (S (fst kt)) thrs)) cs)))
        (combine (seq 0 (List.length thrs)) thrs)).
  Proof.
    destruct V as (He1 & ET & EL). rewrite EL. split; [apply (left_names_NoDup cs u _ He1 Hdist)|]. split; [apply (left_names_In cs u _ He1 Hdist)|].
    intros tol9 hm thrs chosen sel' Hs Hn. apply (loaded_confusion cs u (ce_file b labels) He1 Hdist e2 ET EL chosen sel' tol9 hm thrs Hs Hn).
  Qed.
End File.
