(* The data restricted to a view: what it contains, and that ranking its predictions is
   ranking the remaining predictions of the whole data. *)
From Verif Require Import Prelude Counting CacheModel CacheSpec CacheProofs SortProofs ClsModel ClsLabelProofs FlowModel
  DetModel DetExModel DetSpec DetRankProofs DetCountProofs DetLoaderProofs DetStoreProofs DetLocalProofs DetFlowModel DetFlowProofs
  DetOrderProofs DetMain DetApProofs DetReportModel DetEnd DetFilterModel DetFilterSpec DetFilterProofs DetFilterEntries.
From Coq Require Import Lia QArith Qminmax.
From Coq Require String.
Local Open Scope nat_scope.
Local Open Scope list_scope.

(* ------------------------------------------------------------------ *)
(** * Increasing positions *)

Lemma seq_sorted n : forall k, StronglySorted lt (seq k n).
Proof.
  induction n as [|n IH]; intros k; cbn; constructor; [apply IH|]. apply Forall_forall. intros x Hx. apply in_seq in Hx. lia.
Qed.
Lemma numbered_fst {A} (l : list A) : map fst (numbered l) = seq 0 (length l).
Proof.
  unfold numbered. generalize 0. induction l as [|a l IH]; intros k; [reflexivity|]. cbn. f_equal. apply IH.
Qed.
Lemma filter_fst_sorted {A} (f : nat * A -> bool) (l : list (nat * A)) : StronglySorted lt (map fst l) -> StronglySorted lt (map fst (filter f l)).
Proof.
  induction l as [|a l IH]; intros H; cbn; [constructor|]. inversion H as [|? ? H1 H2]; subst. destruct (f a); [|apply IH; exact H1].
  cbn. constructor; [apply IH; exact H1|]. rewrite Forall_forall in *. intros x Hx. apply H2. apply in_map_iff in Hx.
  destruct Hx as (y & <- & Hy). apply in_map. apply filter_In in Hy. tauto.
Qed.
Lemma sorted_nth (l : list nat) : StronglySorted lt l -> forall i j x y, nth_error l i = Some x -> nth_error l j = Some y -> (i < j <-> x < y).
Proof.
  induction 1 as [|a l H IH Ha]; intros i j x y Hi Hj; [destruct i; discriminate|]. rewrite Forall_forall in Ha.
  destruct i as [|i], j as [|j]; cbn in Hi, Hj.
  - split; intros; [lia|]. assert (x = y) by congruence. lia.
  - injection Hi as ->. apply nth_error_In in Hj. specialize (Ha y Hj). split; lia.
  - injection Hj as ->. apply nth_error_In in Hi. specialize (Ha x Hi). split; lia.
  - specialize (IH i j x y Hi Hj). lia.
Qed.
Lemma sorted_nth_eq (l : list nat) : StronglySorted lt l -> forall i j x, nth_error l i = Some x -> nth_error l j = Some x -> i = j.
Proof.
  intros H i j x Hi Hj. assert (A := sorted_nth l H i j x x Hi Hj). assert (B := sorted_nth l H j i x x Hj Hi). lia.
Qed.

Section Pruned.
  Variable u : dview.

  Lemma gts_sorted d : StronglySorted lt (map fst (kept_gts u d)).
  Proof. apply filter_fst_sorted. rewrite numbered_fst. apply seq_sorted. Qed.
  Lemma pds_sorted d : StronglySorted lt (map fst (kept_pds u d)).
  Proof.
    apply filter_fst_sorted. rewrite map_map. cbn [fst]. change (fun x : nat * annotation => fst x) with (@fst nat annotation). rewrite numbered_fst. apply seq_sorted.
  Qed.
  Lemma gts_nth d j g ga : nth_error (kept_gts u d) j = Some (g, ga) -> nth_error (t_gts d) g = Some ga /\ v_gt u d g = true.
  Proof. intros H. apply nth_error_In in H. apply filter_In in H. destruct H as [H H']. apply numbered_In in H. auto. Qed.
  Lemma gts_cover d g ga : nth_error (t_gts d) g = Some ga -> v_gt u d g = true -> exists j, nth_error (kept_gts u d) j = Some (g, ga).
  Proof. intros H Hv. apply In_nth_error. apply filter_In. split; [apply numbered_In; exact H|exact Hv]. Qed.
  Lemma pds_nth d j p pa' : nth_error (kept_pds u d) j = Some (p, pa') ->
    exists pa, nth_error (t_pds d) p = Some pa /\ pa' = kept_labels u d p pa /\ a_labels pa' <> [].
  Proof.
    intros H. apply nth_error_In in H. apply filter_In in H. destruct H as [H H']. apply in_map_iff in H. destruct H as ([p0 pa] & E & H).
    injection E as <- <-. apply numbered_In in H. exists pa. split; [exact H|]. split; [reflexivity|]. cbn [snd] in H'.
    intros X. rewrite X in H'. discriminate.
  Qed.
  Lemma pds_cover d p pa : nth_error (t_pds d) p = Some pa -> a_labels (kept_labels u d p pa) <> [] -> exists j, nth_error (kept_pds u d) j = Some (p, kept_labels u d p pa).
  Proof.
    intros H Hl. apply In_nth_error. apply filter_In. split.
    - apply in_map_iff. exists (p, pa). split; [reflexivity|]. apply numbered_In. exact H.
    - cbn [snd]. destruct (a_labels (kept_labels u d p pa)); [congruence|reflexivity].
  Qed.
  Lemma gts_tnth d j : nth_error (t_gts (pruned u d)) j = option_map snd (nth_error (kept_gts u d) j).
  Proof. apply nth_error_map. Qed.
  Lemma pds_tnth d j : nth_error (t_pds (pruned u d)) j = option_map snd (nth_error (kept_pds u d) j).
  Proof. apply nth_error_map. Qed.
  Lemma iou_tnth d j k p pa g ga : nth_error (kept_pds u d) j = Some (p, pa) -> nth_error (kept_gts u d) k = Some (g, ga) -> t_iou (pruned u d) j k = t_iou d p g.
  Proof. intros Hj Hk. cbn. rewrite !nth_error_map, Hj, Hk. reflexivity. Qed.
  Lemma gts_of d j ga : nth_error (t_gts (pruned u d)) j = Some ga -> exists g, nth_error (kept_gts u d) j = Some (g, ga).
  Proof. rewrite gts_tnth. destruct (nth_error (kept_gts u d) j) as [[g a]|]; [|discriminate]. cbn. intros E. injection E as <-. eauto. Qed.
  Lemma pds_of d j pa : nth_error (t_pds (pruned u d)) j = Some pa -> exists p, nth_error (kept_pds u d) j = Some (p, pa).
  Proof. rewrite pds_tnth. destruct (nth_error (kept_pds u d) j) as [[p a]|]; [|discriminate]. cbn. intros E. injection E as <-. eauto. Qed.

  Lemma labels_nth d p pa v s : (exists n, nth_error (a_labels (kept_labels u d p pa)) n = Some v /\ nth_error (a_scores (kept_labels u d p pa)) n = Some s) <->
    (exists n, nth_error (a_labels pa) n = Some v /\ nth_error (a_scores pa) n = Some s) /\ v_pd u d p v = true.
  Proof.
    cbn [kept_labels a_labels a_scores]. set (ls := filter _ _). split.
    - intros (n & H1 & H2). rewrite nth_error_map in H1, H2. destruct (nth_error ls n) as [[v' s']|] eqn:E; [|discriminate]. cbn in H1, H2. injection H1 as ->. injection H2 as ->.
      apply nth_error_In in E. apply filter_In in E. destruct E as [E Hv]. split; [|exact Hv]. apply combine_In_nth in E. exact E.
    - intros ((n & H1 & H2) & Hv). assert (H : In (v, s) ls). { apply filter_In. split; [|exact Hv]. apply combine_In_nth. eauto. }
      apply In_nth_error in H. destruct H as (m & H). exists m. rewrite !nth_error_map, H. auto.
  Qed.
  Lemma labels_In d p pa v : length (a_scores pa) = length (a_labels pa) -> (In v (a_labels (kept_labels u d p pa)) <-> In v (a_labels pa) /\ v_pd u d p v = true).
  Proof.
    intros Hl. cbn [kept_labels a_labels]. rewrite in_map_iff. split.
    - intros ([v' s] & E & H). cbn in E. subst v'. apply filter_In in H. destruct H as [H Hv]. split; [|exact Hv]. apply in_combine_l in H. exact H.
    - intros (H & Hv). apply In_nth_error in H. destruct H as (n & H). destruct (nth_error (a_scores pa) n) as [s|] eqn:E.
      + exists (v, s). split; [reflexivity|]. apply filter_In. split; [apply combine_In_nth; eauto|exact Hv].
      + apply nth_error_None in E. assert (n < length (a_labels pa)) by (apply nth_error_Some; congruence). lia.
  Qed.

  (* ---------------------------------------------------------------- well-formedness *)
  Lemma kept_NoDup (f : String.string * Z -> bool) : forall (ls : list String.string) (ss : list Z), NoDup ls -> NoDup (map fst (filter f (combine ls ss))).
  Proof.
    induction ls as [|l ls IH]; intros [|s ss] H; cbn; try constructor. inversion H as [|? ? H1 H2]; subst. destruct (f (l, s)); [|apply IH; exact H2].
    cbn. constructor; [|apply IH; exact H2]. intros X. apply H1. apply in_map_iff in X. destruct X as ([l' s'] & E & X). cbn in E. subst l'.
    apply filter_In in X. destruct X as [X _]. apply in_combine_l in X. exact X.
  Qed.
  Lemma pd_In d pa : In pa (t_pds (pruned u d)) -> exists p pa0, nth_error (t_pds d) p = Some pa0 /\ pa = kept_labels u d p pa0 /\ a_labels pa <> [].
  Proof.
    intros H. apply In_nth_error in H. destruct H as (j & H). apply pds_of in H. destruct H as (p & H). apply pds_nth in H. destruct H as (pa0 & A & B & C). eauto.
  Qed.
  Lemma gt_In d ga : In ga (t_gts (pruned u d)) -> In ga (t_gts d).
  Proof.
    intros H. apply In_nth_error in H. destruct H as (j & H). apply gts_of in H. destruct H as (g & H). apply gts_nth in H. destruct H as (H & _). eapply nth_error_In; eauto.
  Qed.

  Lemma pruned_input unit ds : (0 <= unit)%Z -> det_input unit ds -> det_input unit (map (pruned u) ds).
  Proof.
    unfold det_input. intros Hu H. rewrite Forall_forall in *. intros d' Hd'. apply in_map_iff in Hd'. destruct Hd' as (d & <- & Hd).
    destruct (H d Hd) as (Hok & Hpl & Hio). split; [|split].
    - unfold det_ok in *. rewrite !andb_true_iff in Hok. destruct Hok as ((O1 & O2) & O3). rewrite forallb_forall in O1, O2, O3. rewrite !andb_true_iff, !forallb_forall.
      assert (P : forall pa, In pa (t_pds (pruned u d)) -> length (a_scores pa) = length (a_labels pa) /\ a_labels pa <> []).
      { intros pa Hpa. apply pd_In in Hpa. destruct Hpa as (p & pa0 & _ & -> & Hne). split; [|exact Hne]. cbn. rewrite !map_length. reflexivity. }
      split; [split|].
      + intros ga Hga. apply O1. apply gt_In in Hga. exact Hga.
      + intros pa Hpa. destruct (P pa Hpa) as (P1 & P2). unfold ann_ok. rewrite P1, Nat.eqb_refl, orb_true_r, andb_true_r.
        destruct (a_labels pa) as [|l ls] eqn:E; [congruence|]. cbn [length Nat.eqb negb andb] in *. reflexivity || (destruct (a_scores pa); [discriminate P1|cbn; rewrite ?orb_true_r; reflexivity]).
      + intros pa Hpa. destruct (P pa Hpa) as (P1 & P2). rewrite P1. apply Nat.eqb_refl.
    - intros ga Hga. apply Hpl. apply gt_In in Hga. exact Hga.
    - intros p g. cbn. destruct (nth_error _ p); [|lia]. destruct (nth_error _ g); [apply Hio|lia].
  Qed.
  Lemma pruned_distinct ds : Forall distinct_pd_labels ds -> Forall distinct_pd_labels (map (pruned u) ds).
  Proof.
    rewrite !Forall_forall. intros H d' Hd'. apply in_map_iff in Hd'. destruct Hd' as (d & <- & Hd). intros pa Hpa.
    apply pd_In in Hpa. destruct Hpa as (p & pa0 & Hp & -> & _). cbn [kept_labels a_labels]. apply kept_NoDup. apply (H d Hd). eapply nth_error_In; eauto.
  Qed.
  Lemma pruned_labels ds v : In v (det_labels (map (pruned u) ds)) -> In v (det_labels ds).
  Proof.
    unfold det_labels. rewrite !in_concat. intros (l & Hl & Hv). rewrite map_map in Hl. apply in_map_iff in Hl. destruct Hl as (d & <- & Hd).
    apply in_concat in Hv. destruct Hv as (l & Hl & Hv). apply in_map_iff in Hl. destruct Hl as (a & <- & Ha).
    exists (concat (map a_labels (t_gts d ++ t_pds d))). split; [apply in_map_iff; eauto|]. apply in_concat. apply in_app_iff in Ha. destruct Ha as [Ha|Ha].
    - exists (a_labels a). split; [|exact Hv]. apply in_map. apply in_app_iff. left. apply gt_In in Ha. exact Ha.
    - apply pd_In in Ha. destruct Ha as (p & pa & Hp & -> & _). exists (a_labels pa). split; [apply in_map; apply in_app_iff; right; eapply nth_error_In; eauto|].
      cbn in Hv. apply in_map_iff in Hv. destruct Hv as ([v' s] & E & Hv). cbn in E. subst v'. apply filter_In in Hv. destruct Hv as [Hv _]. apply in_combine_l in Hv. exact Hv.
  Qed.
  Lemma pruned_few ds : few_det_labels ds -> few_det_labels (map (pruned u) ds).
  Proof.
    unfold few_det_labels, few. intros H. assert (X : length (nodup String.string_dec (det_labels (map (pruned u) ds))) <= length (nodup String.string_dec (det_labels ds))); [|lia].
    apply NoDup_incl_length; [apply NoDup_nodup|]. intros v Hv. apply nodup_In in Hv. apply nodup_In. apply pruned_labels. exact Hv.
  Qed.

  (* ---------------------------------------------------------------- ground truths *)
  Lemma pruned_gts ds v : gts_where (fun _ => true) (fun _ _ => true) (map (pruned u) ds) v = gts_where (fun _ => true) (fun d g => v_gt u d g) ds v.
  Proof.
    rewrite <- gts_with_where. unfold gts_with, gts_where. rewrite map_map. f_equal. apply map_ext. intros d. cbn [pruned t_gts].
    unfold kept_gts, countb. generalize (numbered (t_gts d)). induction l as [|[g ga] l IH]; [reflexivity|]. cbn [filter fst snd].
    destruct (v_gt u d g); cbn [map filter snd]; [|rewrite andb_false_r; exact IH]. rewrite andb_true_r. unfold has_label in *.
    destruct (existsb (String.eqb v) (a_labels ga)); [exact (f_equal S IH)|exact IH].
  Qed.

  (* ---------------------------------------------------------------- entries *)
  Definition ren (ds : list detection) (x : aentry) : aentry :=
    match nth_error ds (x_i x) with
    | Some d => MkA (x_i x) (nth (x_p x) (map fst (kept_pds u d)) 0) (x_sc x) (x_z x) (option_map (fun g => nth g (map fst (kept_gts u d)) 0) (x_c x))
    | None => x
    end.
  Lemma fst_nth {A} (l : list (nat * A)) j k a : nth_error l j = Some (k, a) -> nth j (map fst l) 0 = k.
  Proof. intros H. apply nth_error_nth. rewrite nth_error_map, H. reflexivity. Qed.

  Section Entries.
    Variables (eps unit : Z) (ds : list detection).
    Hypothesis Heps : (0 < eps)%Z.
    Hypothesis Hin : det_input unit ds.
    Hypothesis Hdis : Forall distinct_pd_labels ds.
    Local Notation ds' := (map (pruned u) ds).

    Lemma scores_len d p pa i : nth_error ds i = Some d -> nth_error (t_pds d) p = Some pa -> length (a_scores pa) = length (a_labels pa).
    Proof.
      intros Hi Hp. unfold det_input in Hin. rewrite Forall_forall in Hin. destruct (Hin d (nth_error_In _ _ Hi)) as (Hok & _).
      unfold det_ok in Hok. rewrite !andb_true_iff, !forallb_forall in Hok. destruct Hok as (_ & Hok). specialize (Hok pa (nth_error_In _ _ Hp)). apply Nat.eqb_eq in Hok. exact Hok.
    Qed.
    Lemma prune_nth i d' : nth_error ds' i = Some d' <-> exists d, nth_error ds i = Some d /\ d' = pruned u d.
    Proof. rewrite nth_error_map. destruct (nth_error ds i); cbn; split; [intros E; injection E as <-; eauto|intros (? & E & ->); congruence|discriminate|intros (? & ? & _); discriminate]. Qed.

    (* the entries of the restricted data are the remaining entries, renamed *)
    Lemma entry_ren v x : entry eps ds' full_view v x ->
      entry eps ds u v (ren ds x) /\
      exists d, nth_error ds (x_i x) = Some d /\ (exists p pa, nth_error (kept_pds u d) (x_p x) = Some (p, pa) /\ x_p (ren ds x) = p) /\
        forall k, x_c x = Some k -> exists g ga, nth_error (kept_gts u d) k = Some (g, ga) /\ x_c (ren ds x) = Some g.
    Proof.
      intros (d' & pa' & n & Hi & Hp & Hn & Hs & _ & Hc). apply prune_nth in Hi. destruct Hi as (d & Hi & ->).
      apply pds_of in Hp. destruct Hp as (p & Hp). assert (Hp' := Hp). apply pds_nth in Hp'. destruct Hp' as (pa & Hpd & -> & _).
      assert (Hl := scores_len d p pa _ Hi Hpd).
      destruct (proj1 (labels_nth d p pa v (x_sc x))) as ((m & Hm & Hms) & Vp); [eauto|].
      assert (Er : ren ds x = MkA (x_i x) p (x_sc x) (x_z x) (option_map (fun g => nth g (map fst (kept_gts u d)) 0) (x_c x))).
      { unfold ren. rewrite Hi. rewrite (fst_nth _ _ _ _ Hp). reflexivity. }
      assert (Hgt : forall k ga, nth_error (t_gts (pruned u d)) k = Some ga -> exists g, nth_error (kept_gts u d) k = Some (g, ga) /\ t_iou (pruned u d) (x_p x) k = t_iou d p g).
      { intros k ga Hk. apply gts_of in Hk. destruct Hk as (g & Hk). exists g. split; [exact Hk|]. apply (iou_tnth d _ k p _ g ga Hp Hk). }
      assert (Hgc : forall g ga, nth_error (t_gts d) g = Some ga -> v_gt u d g = true -> exists k, nth_error (t_gts (pruned u d)) k = Some ga /\ t_iou (pruned u d) (x_p x) k = t_iou d p g /\ nth_error (kept_gts u d) k = Some (g, ga)).
      { intros g ga Hg Vg. destruct (gts_cover d g ga Hg Vg) as (k & Hk). exists k. split; [rewrite gts_tnth, Hk; reflexivity|]. split; [|exact Hk]. apply (iou_tnth d _ k p _ g ga Hp Hk). }
      assert (Hgl : forall g, g < length (t_gts d) -> v_gt u d g = true -> exists k, k < length (t_gts (pruned u d)) /\ t_iou (pruned u d) (x_p x) k = t_iou d p g).
      { intros g Hg Vg. destruct (nth_error (t_gts d) g) as [ga|] eqn:E; [|apply nth_error_None in E; lia]. destruct (Hgc g ga E Vg) as (k & K1 & K2 & _).
        exists k. split; [apply nth_error_Some; congruence|exact K2]. }
      split.
      - rewrite Er. exists d, pa, m. cbn [x_i x_p x_sc x_z x_c]. split; [exact Hi|]. split; [exact Hpd|]. split; [exact Hm|]. split; [exact Hms|]. split; [exact Vp|].
        destruct (x_c x) as [k|]; cbn [option_map].
        + destruct Hc as ((ga & Hk & Hlb) & _ & Ho & Ez & Hmax & Hfst). destruct (Hgt k ga Hk) as (g & Hk' & Eo). rewrite (fst_nth _ _ _ _ Hk'), Eo in *.
          destruct (gts_nth d k g ga Hk') as (Hg & Vg). split; [eauto|]. split; [exact Vg|]. split; [exact Ho|]. split; [exact Ez|].
          split; intros g' ga' Hg' Hlb' Vg'; destruct (Hgc g' ga' Hg' Vg') as (k' & K1 & <- & K3); [apply (Hmax k' ga' K1 Hlb'); reflexivity|].
          intros Hlt. apply (Hfst k' ga' K1 Hlb'); [reflexivity|]. apply (sorted_nth _ (gts_sorted d) k' k g' g); [rewrite nth_error_map, K3|rewrite nth_error_map, Hk'|exact Hlt]; reflexivity.
        + destruct Hc as (Hno & Hz). split.
          * intros v' g ga Hv' Vv' Hg Hlb Vg. destruct (Hgc g ga Hg Vg) as (k' & K1 & <- & _). apply (Hno v' k' ga); auto. apply labels_In; auto.
          * destruct Hz as [(k & Hk & _ & Ho & Ez & Hmax)|(Ez & Hmax)].
            -- left. destruct (nth_error (t_gts (pruned u d)) k) as [ga|] eqn:E; [|apply nth_error_None in E; lia].
               destruct (Hgt k ga E) as (g & Hk' & Eo). rewrite Eo in *. destruct (gts_nth d k g ga Hk') as (Hg & Vg). exists g.
               split; [apply nth_error_Some; congruence|]. split; [exact Vg|]. split; [exact Ho|]. split; [exact Ez|].
               intros g' Hg' Vg'. destruct (Hgl g' Hg' Vg') as (k' & K1 & <-). apply Hmax; auto.
            -- right. split; [exact Ez|]. intros g' Hg' Vg'. destruct (Hgl g' Hg' Vg') as (k' & K1 & <-). apply Hmax; auto.
      - exists d. split; [exact Hi|]. split; [exists p, (kept_labels u d p pa); rewrite Er; auto|]. intros k Ek. rewrite Ek in Hc. destruct Hc as ((ga & Hk & _) & _).
        destruct (Hgt k ga Hk) as (g & Hk' & _). exists g, ga. split; [exact Hk'|]. rewrite Er, Ek. cbn. rewrite (fst_nth _ _ _ _ Hk'). reflexivity.
    Qed.

    Lemma ren_entry v y : entry eps ds u v y -> exists x, entry eps ds' full_view v x /\ ren ds x = y.
    Proof.
      intros (d & pa & n & Hi & Hp & Hn & Hs & Vp & Hc). assert (Hl := scores_len d (x_p y) pa _ Hi Hp).
      destruct (proj2 (labels_nth d (x_p y) pa v (x_sc y))) as (m & Hm & Hms); [eauto|].
      destruct (pds_cover d (x_p y) pa Hp) as (j & Hj); [intros X; rewrite X in Hm; destruct m; discriminate|].
      assert (Hgc : forall g ga, nth_error (t_gts d) g = Some ga -> v_gt u d g = true -> exists k, nth_error (kept_gts u d) k = Some (g, ga) /\ nth_error (t_gts (pruned u d)) k = Some ga /\ t_iou (pruned u d) j k = t_iou d (x_p y) g).
      { intros g ga Hg Vg. destruct (gts_cover d g ga Hg Vg) as (k & Hk). exists k. split; [exact Hk|]. split; [rewrite gts_tnth, Hk; reflexivity|]. apply (iou_tnth d _ k _ _ g ga Hj Hk). }
      assert (Hgt : forall k ga, nth_error (t_gts (pruned u d)) k = Some ga -> exists g, nth_error (t_gts d) g = Some ga /\ v_gt u d g = true /\ t_iou (pruned u d) j k = t_iou d (x_p y) g /\ nth_error (kept_gts u d) k = Some (g, ga)).
      { intros k ga Hk. apply gts_of in Hk. destruct Hk as (g & Hk). exists g. destruct (gts_nth d k g ga Hk). split; [assumption|]. split; [assumption|]. split; [apply (iou_tnth d _ k _ _ g ga Hj Hk)|exact Hk]. }
      assert (Hgl : forall k, k < length (t_gts (pruned u d)) -> exists g, g < length (t_gts d) /\ v_gt u d g = true /\ t_iou (pruned u d) j k = t_iou d (x_p y) g).
      { intros k Hk. destruct (nth_error (t_gts (pruned u d)) k) as [ga|] eqn:E; [|apply nth_error_None in E; lia]. destruct (Hgt k ga E) as (g & K1 & K2 & K3 & _).
        exists g. split; [apply nth_error_Some; congruence|auto]. }
      assert (Hen : forall c, (forall k, c = Some k -> exists g ga, nth_error (kept_gts u d) k = Some (g, ga) /\ x_c y = Some g) -> (c = None -> x_c y = None) ->
                ren ds (MkA (x_i y) j (x_sc y) (x_z y) c) = y).
      { intros c Hs1 Hs2. unfold ren. cbn [x_i x_p x_sc x_z x_c]. rewrite Hi, (fst_nth _ _ _ _ Hj). destruct y as [i p sc z yc]. cbn in *. f_equal.
        destruct c as [k|]; cbn; [|symmetry; apply Hs2; reflexivity]. destruct (Hs1 k eq_refl) as (g & ga & K & ->). rewrite (fst_nth _ _ _ _ K). reflexivity. }
      assert (Hd' : nth_error ds' (x_i y) = Some (pruned u d)) by (apply prune_nth; eauto).
      assert (Hp' : nth_error (t_pds (pruned u d)) j = Some (kept_labels u d (x_p y) pa)) by (rewrite pds_tnth, Hj; reflexivity).
      destruct (x_c y) as [g|] eqn:Ec.
      - destruct Hc as ((ga & Hg & Hlb) & Vg & Ho & Ez & Hmax & Hfst). destruct (Hgc g ga Hg Vg) as (k & K1 & K2 & K3).
        exists (MkA (x_i y) j (x_sc y) (x_z y) (Some k)). split.
        + exists (pruned u d), (kept_labels u d (x_p y) pa), m. cbn [x_i x_p x_sc x_z x_c]. split; [exact Hd'|]. split; [exact Hp'|]. split; [exact Hm|]. split; [exact Hms|]. split; [reflexivity|].
          rewrite K3. split; [eauto|]. split; [reflexivity|]. split; [exact Ho|]. split; [exact Ez|]. 
          split; intros k' ga' Hk' Hlb' _; destruct (Hgt k' ga' Hk') as (g' & G1 & G2 & -> & G4); [eauto|].
          intros Hlt. apply (Hfst g' ga' G1 Hlb' G2). apply (sorted_nth _ (gts_sorted d) k' k g' g); [rewrite nth_error_map, G4|rewrite nth_error_map, K1|exact Hlt]; reflexivity.
        + apply Hen; [|discriminate]. intros k' E. injection E as <-. eauto.
      - destruct Hc as (Hno & Hz). exists (MkA (x_i y) j (x_sc y) (x_z y) None). split.
        + exists (pruned u d), (kept_labels u d (x_p y) pa), m. cbn [x_i x_p x_sc x_z x_c]. split; [exact Hd'|]. split; [exact Hp'|]. split; [exact Hm|]. split; [exact Hms|]. split; [reflexivity|]. split.
          * intros v' k' ga' Hv' _ Hk' Hlb' _. apply labels_In in Hv'; [|exact Hl]. destruct Hv' as (V1 & V2). destruct (Hgt k' ga' Hk') as (g' & G1 & G2 & -> & _). eauto.
          * destruct Hz as [(g & Hg & Vg & Ho & Ez & Hmax)|(Ez & Hmax)].
            -- left. destruct (nth_error (t_gts d) g) as [ga|] eqn:E; [|apply nth_error_None in E; lia]. destruct (Hgc g ga E Vg) as (k & K1 & K2 & K3). exists k. rewrite K3.
               split; [apply nth_error_Some; congruence|]. split; [reflexivity|]. split; [exact Ho|]. split; [exact Ez|]. intros k' Hk' _. destruct (Hgl k' Hk') as (g' & G1 & G2 & ->). auto.
            -- right. split; [exact Ez|]. intros k' Hk' _. destruct (Hgl k' Hk') as (g' & G1 & G2 & ->). auto.
        + apply Hen; [discriminate|reflexivity].
    Qed.

    Lemma ren_i x : x_i (ren ds x) = x_i x.
    Proof. unfold ren. destruct (nth_error ds (x_i x)); reflexivity. Qed.
    Lemma ren_sc x : x_sc (ren ds x) = x_sc x.
    Proof. unfold ren. destruct (nth_error ds (x_i x)); reflexivity. Qed.
    Lemma ren_z x : x_z (ren ds x) = x_z x.
    Proof. unfold ren. destruct (nth_error ds (x_i x)); reflexivity. Qed.
    Lemma ren_p v x y : entry eps ds' full_view v x -> entry eps ds' full_view v y -> x_i x = x_i y -> (x_p x < x_p y <-> x_p (ren ds x) < x_p (ren ds y)).
    Proof.
      intros Hx Hy E. destruct (entry_ren v x Hx) as (_ & d & Hi & (p & pa & Hp & Ep) & _). destruct (entry_ren v y Hy) as (_ & d' & Hi' & (p' & pa' & Hp' & Ep') & _).
      assert (d' = d) by congruence. subst d'. rewrite Ep, Ep'. apply (sorted_nth _ (pds_sorted d)); rewrite nth_error_map; [rewrite Hp|rewrite Hp']; reflexivity.
    Qed.
    Lemma ren_c v x y k k' g : entry eps ds' full_view v x -> entry eps ds' full_view v y -> x_i x = x_i y -> x_c x = Some k -> x_c y = Some k' ->
      x_c (ren ds x) = Some g -> x_c (ren ds y) = Some g -> k = k'.
    Proof.
      intros Hx Hy E Ex Ey Gx Gy. destruct (entry_ren v x Hx) as (_ & d & Hi & _ & Hc). destruct (entry_ren v y Hy) as (_ & d' & Hi' & _ & Hc').
      assert (d' = d) by congruence. subst d'. destruct (Hc k Ex) as (g1 & ga1 & A & A'). destruct (Hc' k' Ey) as (g2 & ga2 & B & B').
      assert (g1 = g) by congruence. assert (g2 = g) by congruence. subst g1 g2.
      apply (sorted_nth_eq _ (gts_sorted d) k k' g); rewrite nth_error_map; [rewrite A|rewrite B]; reflexivity.
    Qed.

    Lemma canonical_ren v l : canonical eps ds' full_view v l -> canonical eps ds u v (map (ren ds) l).
    Proof.
      intros [A B C]. assert (Hinj : forall x y, In x l -> In y l -> ren ds x = ren ds y -> x = y).
      { intros x y Hx Hy E. apply A in Hx, Hy. assert (Ei : x_i x = x_i y) by (rewrite <- (ren_i x), <- (ren_i y), E; reflexivity).
        apply (entry_unique eps ds' full_view v); auto; [apply pruned_distinct; exact Hdis|].
        assert (P := ren_p v x y Hx Hy Ei). assert (P' := ren_p v y x Hy Hx (eq_sym Ei)). rewrite E in P, P'. lia. }
      split.
      - intros y. rewrite in_map_iff. split.
        + intros (x & <- & Hx). apply A in Hx. apply (entry_ren v x Hx).
        + intros Hy. destruct (ren_entry v y Hy) as (x & Hx & E). exists x. split; [exact E|]. apply A. exact Hx.
      - clear A C. induction l as [|a l IH]; cbn; [constructor|]. inversion B as [|? ? B1 B2]; subst. constructor.
        + intros X. apply in_map_iff in X. destruct X as (y & E & Hy). apply B1. rewrite <- (Hinj y a); auto using in_cons, in_eq.
        + apply IH; [exact B2|]. intros x y Hx Hy. apply Hinj; right; assumption.
      - assert (Hl : forall x, In x l -> entry eps ds' full_view v x) by (intros x Hx; apply A; exact Hx). clear A B Hinj.
        induction C as [|a l C IH Ha]; cbn; constructor; [apply IH; intros; apply Hl; right; assumption|].
        rewrite Forall_forall in *. intros y Hy. apply in_map_iff in Hy. destruct Hy as (x & <- & Hx). specialize (Ha x Hx).
        unfold a_le in *. rewrite !ren_i, !ren_sc, !ren_z.
        assert (P := fun E => ren_p v x a (Hl x (in_cons _ _ _ Hx)) (Hl a (in_eq _ _)) E). lia.
    Qed.
    Lemma ahits_ren v t l : forall pre, (forall x, In x (pre ++ l) -> entry eps ds' full_view v x) ->
      ahits eps t (map (ren ds) pre) (map (ren ds) l) = ahits eps t pre l.
    Proof.
      induction l as [|x l IH]; intros pre Hl; [reflexivity|]. cbn [map ahits]. f_equal.
      - rewrite ren_sc. f_equal. unfold ahit. rewrite ren_z. assert (Hx := Hl x (in_or_app _ _ _ (or_intror (in_eq _ _)))).
        destruct (entry_ren v x Hx) as (_ & d & Hi & _ & Hc). destruct (x_c x) as [k|] eqn:Ec.
        + destruct (Hc k eq_refl) as (g & ga & Hk & Eg). rewrite Eg. f_equal. f_equal.
          assert (Hpre : forall y, In y pre -> entry eps ds' full_view v y) by (intros y Hy; apply Hl; apply in_app_iff; left; exact Hy).
          clear Hl IH. induction pre as [|y pre IHp]; [reflexivity|]. cbn [map existsb]. rewrite IHp by (intros; apply Hpre; right; assumption). f_equal.
          rewrite ren_i, ren_i, ren_z. assert (Hy := Hpre y (in_eq _ _)). destruct (entry_ren v y Hy) as (_ & d' & Hi' & _ & Hc').
          destruct (x_c y) as [k'|] eqn:Ec'.
          * destruct (Hc' k' eq_refl) as (g' & ga' & Hk' & Eg'). rewrite Eg'. destruct (Nat.eqb_spec (x_i y) (x_i x)) as [Ei|Ei]; [|reflexivity]. cbn [andb]. f_equal.
            assert (d' = d) by congruence. subst d'.
            destruct (Nat.eqb_spec g' g) as [->|Hne], (Nat.eqb_spec k' k) as [->|Hne']; try reflexivity.
            -- exfalso. apply Hne'. apply (ren_c v y x k' k g Hy Hx Ei Ec' Ec Eg' Eg).
            -- exfalso. apply Hne. congruence.
          * assert (X : x_c (ren ds y) = None) by (unfold ren; destruct (nth_error ds (x_i y)); cbn; rewrite Ec'; reflexivity). rewrite X. reflexivity.
        + assert (X : x_c (ren ds x) = None) by (unfold ren; destruct (nth_error ds (x_i x)); cbn; rewrite Ec; reflexivity). rewrite X. reflexivity.
      - rewrite <- (IH (pre ++ [x])); [rewrite map_app; reflexivity|]. intros y Hy. apply Hl. rewrite <- app_assoc in Hy. exact Hy.
    Qed.
  End Entries.
End Pruned.
