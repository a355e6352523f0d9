(* Filtered evaluators report on the data restricted to what the filters keep. *)
From Verif Require Import Prelude Counting CacheModel CacheSpec CacheProofs SortProofs ClsModel ClsLabelProofs FlowModel
  DetModel DetExModel DetSpec DetRankProofs DetCountProofs DetLoaderProofs DetStoreProofs DetLocalProofs DetFlowModel DetFlowProofs
  DetOrderProofs DetMain DetApProofs DetReportModel DetEnd DetMore DetFilterModel DetFilterSpec DetFilterProofs DetFilterEntries DetFilterPruned.
From Coq Require Import Lia QArith Qminmax.
From Coq Require String.
Local Open Scope nat_scope.
Local Open Scope list_scope.

Lemma all_selected ds : det_selects ds (fun _ => true) (fun _ => true).
Proof. intros r i d _ _ _. reflexivity. Qed.

(* ------------------------------------------------------------------ *)
(** * Metrics from counts *)

Lemma reports_ext eps e datums l e' datums' l' :
  rep_gts e datums l = rep_gts e' datums' l' ->
  (forall t s, (0 < t)%Z -> rep_tp eps e datums t s l = rep_tp eps e' datums' t s l') ->
  (forall t s, (0 < t)%Z -> rep_fp eps e datums t s l = rep_fp eps e' datums' t s l') ->
  (forall t b, (0 < t)%Z -> rep_curve eps e datums t l b = rep_curve eps e' datums' t l' b) ->
  same_report eps e datums l e' datums' l'.
Proof.
  intros Hg Ht Hf Hc.
  assert (Cn : forall t s, (0 < t)%Z -> rep_counts eps e datums t s l = rep_counts eps e' datums' t s l').
  { intros t s H. specialize (Ht t s H). specialize (Hf t s H). unfold rep_tp, rep_fp in *. destruct (rep_counts eps e datums t s l), (rep_counts eps e' datums' t s l'). cbn in *. congruence. }
  assert (Rc : forall t s, (0 < t)%Z -> rep_recall eps e datums t s l = rep_recall eps e' datums' t s l').
  { intros t s H. unfold rep_recall. rewrite Hg, (Cn t s H). reflexivity. }
  constructor; auto.
  - intros t s H. unfold rep_fn. rewrite Hg, (Ht t s H). reflexivity.
  - intros t s H. unfold rep_precision. rewrite (Cn t s H). reflexivity.
  - intros t s H. unfold rep_f1. rewrite Hg, (Cn t s H). reflexivity.
  - intros t H. unfold rep_ap. apply average_precision_ext. intros b. apply Hc. exact H.
  - intros t H. unfold rep_pr_curve. f_equal. apply run_max_ext. intros b. apply Hc. exact H.
  - intros ious s H. unfold rep_ar. f_equal. apply map_ext_in. intros t Hi. apply Rc. apply H. exact Hi.
Qed.

Lemma ap_loop_zero c : (forall b, (c b == 0)%Q) -> forall bins m s, (m == 0)%Q -> (s == 0)%Q -> (ap_loop c bins m s == 0)%Q.
Proof.
  intros Hc bins. induction bins as [|b bins IH]; intros m s Hm Hs; cbn [ap_loop]; [exact Hs|].
  assert (Hx : (Qmax (c b) m == 0)%Q) by (rewrite Hc, Hm; reflexivity). apply IH; [exact Hx|]. rewrite Hs, Hx. reflexivity.
Qed.
Lemma empty_ext eps e datums l :
  rep_gts e datums l = 0 ->
  (forall t s, (0 < t)%Z -> rep_tp eps e datums t s l + rep_fp eps e datums t s l = 0) ->
  (forall t b, (0 < t)%Z -> rep_curve eps e datums t l b = 0%Q) ->
  empty_report eps e datums l.
Proof.
  intros Hg Ht Hc.
  assert (Cn : forall t s, (0 < t)%Z -> rep_counts eps e datums t s l = MkDC 0 0).
  { intros t s H. specialize (Ht t s H). unfold rep_tp, rep_fp in *. destruct (rep_counts eps e datums t s l) as [a b]. cbn in *. f_equal; lia. }
  constructor; [exact Hg| | |].
  - intros t s H. unfold rep_tp, rep_fp, rep_fn, rep_tp. rewrite Hg, (Cn t s H). cbn. auto.
  - intros t s H. unfold rep_precision, rep_recall, rep_f1. rewrite Hg, (Cn t s H). repeat split; reflexivity.
  - intros t H. unfold rep_ap, average_precision. rewrite ap_loop_zero; [reflexivity| |reflexivity|reflexivity]. intros b. rewrite Hc by exact H. reflexivity.
Qed.

(* ------------------------------------------------------------------ *)
(** * Labels *)

Section Shown.
  Variables (eps unit : Z) (ds : list detection) (L : list String.string).
  Hypothesis Hin : det_input unit ds.

  (* the labels stay those of the original evaluator *)
  Lemma shows_origin w e : shows eps unit ds L w e -> exists e0, det_evaluator eps unit ds e0 /\ de_labels e = de_labels e0 /\
    (forall v vi, label_no e0 v vi <-> index_of v L = Some vi).
  Proof.
    intros H. induction H as [e He Hl|w e bs rb datums gts pds sel sg sp e' H IH Hsel Hsg Hsp Hf|w e bs rpf rb datums gts pds sel sg sp e' Hrb H IH Hsel Hsg Hsp Hf].
    - exists e. auto.
    - destruct IH as (e0 & A & B & C). exists e0. split; [exact A|]. split; [|exact C].
      assert (S := det_filter_mem_spec unit bs rb e datums gts pds). cbv zeta in S.
      destruct (concat (det_filter_tables datums gts pds (de_detailed e))) as [|r rs]; [congruence|]. destruct S as (e1 & E & _ & S & _).
      assert (e1 = e') by congruence. congruence.
    - destruct IH as (e0 & A & B & C). exists e0. split; [exact A|]. split; [|exact C].
      assert (S := det_filter_file_spec unit bs rpf rb e datums gts pds Hrb). cbv zeta in S.
      destruct (concat (det_filter_tables datums gts pds (de_detailed e))) as [|r rs]; [congruence|]. destruct S as (e1 & gs & E & _ & _ & S & _).
      assert (e1 = e') by congruence. congruence.
  Qed.
  Lemma shows_small w e : few_det_labels ds -> shows eps unit ds L w e -> small_labels L.
  Proof.
    intros Hf H. destruct (shows_origin w e H) as (e0 & He & _ & Hl). destruct (end_facts eps unit ds Hin e0 He) as (L0 & _ & _ & _ & B & Hfew & _).
    intros v i Hi. apply Hl, B in Hi. apply index_of_nth in Hi. assert (i < length L0) by (apply nth_error_Some; congruence). specialize (Hfew Hf). unfold few in Hfew. lia.
  Qed.
  Lemma shows_labels w e v : shows eps unit ds L w e -> ((exists vi, label_no e v vi) <-> In v (det_labels ds)).
  Proof.
    intros H. destruct (shows_origin w e H) as (e0 & He & E & _). unfold label_no. rewrite E. apply (det_label_exists eps unit ds Hin e0 v He).
  Qed.
End Shown.

(* ------------------------------------------------------------------ *)
(** * Reports of a shown view *)

Section Report.
  Variables (eps unit : Z) (ds : list detection) (L : list String.string) (w : dview) (e : deval).
  Hypothesis Heps : (0 < eps)%Z.
  Hypothesis Hu : (0 <= unit)%Z.
  Hypothesis Hin : det_input unit ds.
  Hypothesis Hfew : few_det_labels ds.
  Hypothesis Hdis : Forall distinct_pd_labels ds.
  Hypothesis Hsh : shows eps unit ds L w e.
  Variables (datums : drow -> bool) (sel : detection -> bool).
  Hypothesis Hsel : det_selects ds datums sel.
  Local Notation u := (by_selection w sel).
  Local Notation ds' := (map (pruned u) ds).
  Let Hg : good eps unit ds L w e := shows_good eps unit ds L w e Hin Hsh.
  Let Hsmall : small_labels L := shows_small eps unit ds L Hin w e Hfew Hsh.

  (* the metrics of a label are functions of its canonical list of entries *)
  Lemma shown_report v vi : label_no e v vi -> exists l, canonical eps ds u v l /\
    rep_gts e datums (Z.of_nat vi) = gts_where (fun _ => true) (fun d g => v_gt u d g) ds v /\
    (forall t s, (0 < t)%Z -> rep_tp eps e datums t s (Z.of_nat vi) = countb (fun xh => snd xh && (s <=? x_sc (fst xh))%Z) (combine l (ahits eps t [] l))) /\
    (forall t s, (0 < t)%Z -> rep_tp eps e datums t s (Z.of_nat vi) + rep_fp eps e datums t s (Z.of_nat vi) = countb (fun x => (eps <? x_sc x)%Z && (s <=? x_sc x)%Z) l) /\
    (forall t b, (0 < t)%Z -> rep_curve eps e datums t (Z.of_nat vi) b
       = fold_left (fun m p => Qmax m (qnat (snd p) / qnat (fst p))) (filter (fun p => Nat.eqb (100 * snd p / rep_gts e datums (Z.of_nat vi)) b)
           (pr_list 0 0 (ahits eps t [] l))) 0%Q).
  Proof.
    intros Hv. apply (g_labels _ _ _ _ _ _ Hg) in Hv. eexists. split; [eapply (rl_canonical eps unit ds L w e); eauto|].
    split; [eapply (f_gts eps unit ds L w e); eauto|]. split; [|split].
    - intros t s Ht. eapply (f_tp eps unit ds L w e); eauto.
    - intros t s Ht. eapply (f_total eps unit ds L w e); eauto.
    - intros t b Ht. eapply (f_rep_curve eps unit ds L w e); eauto.
  Qed.
End Report.

Lemma sum_zero {A} (f : A -> nat) l : (forall x, In x l -> f x = 0) -> list_sum_nat (map f l) = 0.
Proof. intros H. induction l as [|a l IH]; [reflexivity|]. unfold list_sum_nat in *. cbn. rewrite (H a (in_eq _ _)), IH; [reflexivity|]. intros; apply H; right; assumption. Qed.

Section Filtered.
  Variables (eps unit : Z) (ds : list detection) (L : list String.string) (w : dview) (e : deval).
  Hypothesis Heps : (0 < eps)%Z.
  Hypothesis Hu : (0 <= unit)%Z.
  Hypothesis Hin : det_input unit ds.
  Hypothesis Hfew : few_det_labels ds.
  Hypothesis Hdis : Forall distinct_pd_labels ds.
  Hypothesis Hsh : shows eps unit ds L w e.
  Variables (datums : drow -> bool) (sel : detection -> bool).
  Hypothesis Hsel : det_selects ds datums sel.
  Local Notation u := (by_selection w sel).
  Local Notation ds' := (map (pruned u) ds).
  Let Hin' : det_input unit ds' := pruned_input u unit ds Hu Hin.
  Let Hdis' : Forall distinct_pd_labels ds' := pruned_distinct u ds Hdis.
  Let Hfew' : few_det_labels ds' := pruned_few u ds Hfew.

  Lemma built_shows e' : det_evaluator eps unit ds' e' -> exists L', shows eps unit ds' L' full_view e'.
  Proof.
    intros He'. destruct (end_facts eps unit ds' Hin' e' He') as (L' & _ & _ & _ & B & _). exists L'. apply Shows_built; assumption.
  Qed.

  Theorem filtered_report e' v vi vi' : det_evaluator eps unit ds' e' -> label_no e v vi -> label_no e' v vi' ->
    same_report eps e datums (Z.of_nat vi) e' (fun _ => true) (Z.of_nat vi').
  Proof.
    intros He' Hv Hv'. destruct (built_shows e' He') as (L' & Hsh').
    destruct (shown_report eps unit ds L w e Heps Hu Hin Hfew Hdis Hsh datums sel Hsel v vi Hv) as (l & Hl & Eg & Et & Ef & Ec).
    destruct (shown_report eps unit ds' L' full_view e' Heps Hu Hin' Hfew' Hdis' Hsh' (fun _ => true) (fun _ => true) (all_selected ds') v vi' Hv') as (l' & Hl' & Eg' & Et' & Ef' & Ec').
    change (by_selection full_view (fun _ => true)) with full_view in *. change (fun (d : detection) (g : nat) => v_gt full_view d g) with (fun (d : detection) (g : nat) => true) in *.
    assert (El : l = map (ren u ds) l') by (apply (canonical_unique eps ds u v); auto; apply (canonical_ren u eps unit); auto).
    assert (Hen : forall x, In x l' -> entry eps ds' full_view v x) by (intros x Hx; apply (can_in _ _ _ _ _ Hl'); exact Hx).
    assert (Eh : forall t, ahits eps t [] l = ahits eps t [] l') by (intros t; rewrite El; apply (ahits_ren u eps unit ds Hin v t l' []); exact Hen).
    assert (EG : rep_gts e datums (Z.of_nat vi) = rep_gts e' (fun _ => true) (Z.of_nat vi')) by (rewrite Eg, Eg'; symmetry; apply pruned_gts).
    assert (ET : forall t s, (0 < t)%Z -> rep_tp eps e datums t s (Z.of_nat vi) = rep_tp eps e' (fun _ => true) t s (Z.of_nat vi')).
    { intros t s Ht. rewrite (Et t s Ht), (Et' t s Ht), (Eh t), El. generalize (ahits eps t [] l'). clear. induction l' as [|x l' IH]; intros [|h hs]; try reflexivity.
      unfold countb in *. cbn [map combine filter fst snd]. rewrite ren_sc. specialize (IH hs). destruct (h && (s <=? x_sc x)%Z); [exact (f_equal S IH)|exact IH]. }
    apply reports_ext; auto.
    - intros t s Ht. assert (A := Ef t s Ht). assert (B := Ef' t s Ht). rewrite (ET t s Ht) in A.
      assert (C : countb (fun x => (eps <? x_sc x)%Z && (s <=? x_sc x)%Z) l = countb (fun x => (eps <? x_sc x)%Z && (s <=? x_sc x)%Z) l'); [|lia].
      rewrite El. clear. unfold countb. induction l' as [|x l' IH]; [reflexivity|]. cbn [map filter]. rewrite ren_sc.
      destruct ((eps <? x_sc x)%Z && (s <=? x_sc x)%Z); [exact (f_equal S IH)|exact IH].
    - intros t b Ht. rewrite (Ec t b Ht), (Ec' t b Ht), (Eh t), EG. reflexivity.
  Qed.

  Lemma label_in_labels dd i d (a : annotation) v : nth_error dd i = Some d -> In a (t_gts d ++ t_pds d) -> In v (a_labels a) -> In v (det_labels dd).
  Proof.
    intros Hi Ha Hv. unfold det_labels. apply in_concat. exists (concat (map a_labels (t_gts d ++ t_pds d))). split; [apply in_map_iff; exists d; split; [reflexivity|eapply nth_error_In; eauto]|].
    apply in_concat. exists (a_labels a). split; [apply in_map; exact Ha|exact Hv].
  Qed.
  Theorem absent_report v vi : label_no e v vi -> ~ In v (det_labels ds') -> empty_report eps e datums (Z.of_nat vi).
  Proof.
    intros Hv Hno. destruct (shown_report eps unit ds L w e Heps Hu Hin Hfew Hdis Hsh datums sel Hsel v vi Hv) as (l & Hl & Eg & Et & Ef & Ec).
    assert (El : l = []).
    { destruct l as [|y l]; [reflexivity|]. exfalso. assert (Hy : entry eps ds u v y) by (apply (can_in _ _ _ _ _ Hl); left; reflexivity).
      destruct (ren_entry u eps unit ds Hin v y Hy) as (x & (d & pa & n & Hi & Hp & Hn & _) & _). apply Hno.
      apply (label_in_labels ds' (x_i x) d pa v Hi); [apply in_app_iff; right; apply (nth_error_In _ _ Hp)|apply (nth_error_In _ _ Hn)]. }
    subst l. apply empty_ext.
    - rewrite Eg, <- pruned_gts, <- gts_with_where. unfold gts_with. apply sum_zero. intros d Hd.
      unfold countb. rewrite (filter_none _ (t_gts d)); [reflexivity|]. intros a Ha. apply not_true_is_false. rewrite existsb_exists. intros (l & Hla & El). apply String.eqb_eq in El. subst l.
      apply In_nth_error in Hd. destruct Hd as (i & Hi). apply Hno. apply (label_in_labels ds' i d a v Hi); [apply in_app_iff; left; exact Ha|exact Hla].
    - intros t s Ht. rewrite (Ef t s Ht). reflexivity.
    - intros t b Ht. rewrite (Ec t b Ht). reflexivity.
  Qed.
End Filtered.
