(* Every table of an evaluator, cut down by the filters of a metric call and of a page,
   shows images of the restricted input. *)
From Verif Require Import Prelude Counting CacheModel CacheSpec CacheProofs SortProofs ClsModel FlowModel ClsLabelProofs DetModel DetExModel DetSpec DetFlowModel
  DetFilterModel DetOrderProofs DetLocalProofs DetLoaderProofs DetStoreProofs DetMain DetReportModel DetEnd DetMatchProofs DetFilterSpec DetFilterProofs DetFilterEntries
  DetFilterPruned DetFilterMain DetTurnSpec DetPicture DetPictureLists DetPairOrder.
From Coq Require Import Lia.
From Coq Require String.
Local Open Scope nat_scope.
Local Open Scope list_scope.

Lemma in_combine_nth {A B} (l : list A) (m : list B) x y : In (x, y) (combine l m) <-> exists n, nth_error l n = Some x /\ nth_error m n = Some y.
Proof.
  revert m. induction l as [|a l IH]; intros [|b m]; cbn; (split; [intros H|intros ([|n] & H1 & H2); try discriminate]).
  - destruct H.
  - destruct H.
  - destruct H.
  - destruct H as [E|H]; [injection E as -> ->; exists 0; split; reflexivity|]. apply IH in H. destruct H as (n & H). exists (S n). exact H.
  - cbn in *. left. congruence.
  - right. apply IH. exists n. split; assumption.
Qed.
Lemma id_order (f : detection -> nat) ds i j d e x y : nth_error ds i = Some d -> nth_error ds j = Some e -> x < f d -> y < f e ->
  i < j \/ (i = j /\ x < y) -> list_sum_nat (map f (firstn i ds)) + x < list_sum_nat (map f (firstn j ds)) + y.
Proof.
  intros Hi Hj Hx Hy [H|(-> & H)]; [|lia]. assert (Si := before_step f ds i d Hi). assert (M := before_mono f ds (S i) j H). lia.
Qed.
Lemma id_bound (f : detection -> nat) ds i d x : nth_error ds i = Some d -> x < f d ->
  list_sum_nat (map f (firstn i ds)) + x < list_sum_nat (map f (firstn (length ds) ds)).
Proof.
  intros Hi Hx. assert (Si := before_step f ds i d Hi). assert (L : i < length ds) by (apply nth_error_Some; congruence).
  assert (M := before_mono f ds (S i) (length ds) L). lia.
Qed.

Section Pictured.
  Variables (eps unit : Z) (ds : list detection) (L : list String.string) (w : dview) (e : deval).
  Hypothesis Hu : (0 <= unit)%Z.
  Hypothesis Hin : det_input unit ds.
  Hypothesis Hfew : few_det_labels ds.
  Hypothesis Hann : few_annotations ds.
  Hypothesis Hdis : Forall distinct_pd_labels ds.
  Hypothesis Hsh : shows eps unit ds L w e.
  Variables (sel : detection -> bool) (datums : drow -> bool).
  Hypothesis Hsel : det_selects ds datums sel.
  Notation u := (by_selection w sel).
  Notation ds' := (map (pruned u) ds).
  Definition Gn (i j : nat) : Z := match nth_error ds i with Some d => gt_id ds i (nth j (map fst (kept_gts u d)) 0) | None => 0%Z end.
  Definition Pn (i j : nat) : Z := match nth_error ds i with Some d => pd_id ds i (nth j (map fst (kept_pds u d)) 0) | None => 0%Z end.

  Lemma gt_position d j : j < length (t_gts (pruned u d)) -> exists g ga, nth_error (kept_gts u d) j = Some (g, ga) /\ nth_error (t_gts d) g = Some ga /\ v_gt u d g = true.
  Proof.
    intros H. destruct (nth_error (t_gts (pruned u d)) j) as [ga|] eqn:E; [|apply nth_error_None in E; lia].
    apply gts_of in E. destruct E as (g & E). exists g, ga. split; [exact E|]. apply (gts_nth u d j g ga E).
  Qed.
  Lemma pd_position d j : j < length (t_pds (pruned u d)) -> exists p pa, nth_error (kept_pds u d) j = Some (p, kept_labels u d p pa) /\ nth_error (t_pds d) p = Some pa.
  Proof.
    intros H. destruct (nth_error (t_pds (pruned u d)) j) as [pa'|] eqn:E; [|apply nth_error_None in E; lia].
    apply pds_of in E. destruct E as (p & E). destruct (pds_nth u d j p pa' E) as (pa & A & B & _). subst pa'. exists p, pa. split; assumption.
  Qed.
  Lemma Gn_is i d j g ga : nth_error ds i = Some d -> nth_error (kept_gts u d) j = Some (g, ga) -> Gn i j = gt_id ds i g.
  Proof. intros H E. unfold Gn. rewrite H. rewrite (fst_nth _ _ _ _ E). reflexivity. Qed.
  Lemma Pn_is i d j p pa : nth_error ds i = Some d -> nth_error (kept_pds u d) j = Some (p, pa) -> Pn i j = pd_id ds i p.
  Proof. intros H E. unfold Pn. rewrite H. rewrite (fst_nth _ _ _ _ E). reflexivity. Qed.

  Lemma pruned_ids : ids_increase ds' Gn Pn.
  Proof.
    destruct Hann as (A1 & A2 & A3). split.
    - intros i H. rewrite map_length in H. unfold id_ok. lia.
    - intros i d' g D H. apply prune_nth in D. destruct D as (d & D & ->). destruct (gt_position d g H) as (g0 & ga & K & N & _).
      rewrite (Gn_is i d g g0 ga D K). assert (X := id_bound (fun d => length (t_gts d)) ds i d g0 D). cbv beta in X.
      assert (g0 < length (t_gts d)) by (apply nth_error_Some; congruence). unfold id_ok, gt_id, gts_before in *. lia.
    - intros i d' g D H. apply prune_nth in D. destruct D as (d & D & ->). destruct (pd_position d g H) as (g0 & ga & K & N).
      rewrite (Pn_is i d g g0 _ D K). assert (X := id_bound (fun d => length (t_pds d)) ds i d g0 D). cbv beta in X.
      assert (g0 < length (t_pds d)) by (apply nth_error_Some; congruence). unfold id_ok, pd_id, pds_before in *. lia.
    - intros i d' g j e' h D H D2 H2 Hlt. apply prune_nth in D, D2. destruct D as (d & D & ->). destruct D2 as (d2 & D2 & ->).
      destruct (gt_position d g H) as (g0 & ga & K & N & _). destruct (gt_position d2 h H2) as (h0 & ha & K2 & N2 & _).
      rewrite (Gn_is i d g g0 ga D K), (Gn_is j d2 h h0 ha D2 K2). unfold gt_id, gts_before. apply inj_lt.
      apply (id_order (fun d => length (t_gts d)) ds i j d d2); [exact D|exact D2|apply nth_error_Some; congruence|apply nth_error_Some; congruence|].
      destruct Hlt as [Hlt|(-> & Hlt)]; [left; exact Hlt|right; split; [reflexivity|]]. assert (d2 = d) by congruence. subst d2.
      apply (sorted_nth _ (gts_sorted u d) g h g0 h0); [rewrite nth_error_map, K; reflexivity|rewrite nth_error_map, K2; reflexivity|exact Hlt].
    - intros i d' g j e' h D H D2 H2 Hlt. apply prune_nth in D, D2. destruct D as (d & D & ->). destruct D2 as (d2 & D2 & ->).
      destruct (pd_position d g H) as (g0 & ga & K & N). destruct (pd_position d2 h H2) as (h0 & ha & K2 & N2).
      rewrite (Pn_is i d g g0 _ D K), (Pn_is j d2 h h0 _ D2 K2). unfold pd_id, pds_before. apply inj_lt.
      apply (id_order (fun d => length (t_pds d)) ds i j d d2); [exact D|exact D2|apply nth_error_Some; congruence|apply nth_error_Some; congruence|].
      destruct Hlt as [Hlt|(-> & Hlt)]; [left; exact Hlt|right; split; [reflexivity|]]. assert (d2 = d) by congruence. subst d2.
      apply (sorted_nth _ (pds_sorted u d) g h g0 h0); [rewrite nth_error_map, K; reflexivity|rewrite nth_error_map, K2; reflexivity|exact Hlt].
  Qed.
  Lemma pruned_len d pa : In d ds' -> In pa (t_pds d) -> length (a_labels pa) = length (a_scores pa).
  Proof.
    intros H Hp. apply in_map_iff in H. destruct H as (d0 & <- & _). apply pd_In in Hp. destruct Hp as (p & pa0 & _ & -> & _). cbn. rewrite !map_length. reflexivity.
  Qed.
  Lemma pruned_one d ga : In d ds' -> In ga (t_gts d) -> exists gl, a_labels ga = [gl].
  Proof. apply (single_gt_label unit ds' (pruned_input u unit ds Hu Hin)). Qed.
  Lemma pruned_dis : Forall distinct_pd_labels ds'.
  Proof. apply pruned_distinct. exact Hdis. Qed.
  Lemma small_L : small_labels L.
  Proof. apply (shows_small eps unit ds L Hin w e Hfew Hsh). Qed.

  (* ------------------------------------------------------------------ rows *)
  Let Hgood : good eps unit ds L w e := shows_good eps unit ds L w e Hin Hsh.
  Notation T := (concat (de_detailed e)).
  Lemma sel_gt d g : v_gt w d g = true -> sel d = true -> v_gt u d g = true.
  Proof. intros A B. cbn. rewrite A, B. reflexivity. Qed.
  Lemma sel_pd d p v : v_pd w d p v = true -> sel d = true -> v_pd u d p v = true.
  Proof. intros A B. cbn. rewrite A, B. reflexivity. Qed.
  Lemma u_gt d g : v_gt u d g = true -> v_gt w d g = true /\ sel d = true.
  Proof. cbn. intros H. apply andb_true_iff in H. destruct H as (H & H1). apply andb_true_iff in H. destruct H. split; assumption. Qed.
  Lemma u_pd d p v : v_pd u d p v = true -> v_pd w d p v = true /\ sel d = true.
  Proof. cbn. intros H. apply andb_true_iff in H. destruct H as (H & H1). apply andb_true_iff in H. destruct H. split; assumption. Qed.

  Lemma gt_row_of i d g r : nth_error ds i = Some d -> carries_gt ds L i g r -> v_gt u d g = true ->
    exists j, j < length (t_gts (pruned u d)) /\ gt_row ds' L Gn i j r /\ exists ga, nth_error (kept_gts u d) j = Some (g, ga).
  Proof.
    intros D (d0 & ga & v & gi & D0 & A & B & C & E1 & E2 & E3 & E4 & E5 & E6) V. assert (d0 = d) by congruence. subst d0.
    destruct (gts_cover u d g ga A V) as (j & K). exists j.
    assert (N : nth_error (t_gts (pruned u d)) j = Some ga) by (rewrite gts_tnth, K; reflexivity).
    split; [apply nth_error_Some; congruence|]. split; [|eauto].
    exists (pruned u d), ga, v, gi. split; [rewrite nth_error_map, D; reflexivity|]. split; [exact N|]. split; [exact B|]. split; [exact C|].
    split; [exact E1|]. split; [exact E2|]. split; [exact E3|]. split; [rewrite (Gn_is i d j g ga D K); exact E4|exact E6].
  Qed.
  Lemma pd_row_of i d p v sc r : nth_error ds i = Some d -> carries_pd ds L i p v sc r -> v_pd u d p v = true ->
    exists j, j < length (t_pds (pruned u d)) /\ pd_row ds' L Pn i j v sc r /\ exists pa, nth_error (kept_pds u d) j = Some (p, pa).
  Proof.
    intros D (d0 & pa & n & pi & D0 & A & B & C & I & E1 & E2 & E3 & E4 & E5 & E6 & E7) V. assert (d0 = d) by congruence. subst d0.
    destruct (proj2 (labels_nth u d p pa v sc) (conj (ex_intro _ n (conj B C)) V)) as (m & M1 & M2).
    assert (NE : a_labels (kept_labels u d p pa) <> []) by (intros X; rewrite X in M1; destruct m; discriminate).
    destruct (pds_cover u d p pa A NE) as (j & K). exists j.
    assert (N : nth_error (t_pds (pruned u d)) j = Some (kept_labels u d p pa)) by (rewrite pds_tnth, K; reflexivity).
    split; [apply nth_error_Some; congruence|]. split; [|eauto].
    exists (pruned u d), (kept_labels u d p pa), pi. split; [rewrite nth_error_map, D; reflexivity|]. split; [exact N|].
    split; [apply in_combine_nth; exists m; split; assumption|]. split; [exact I|].
    split; [exact E1|]. split; [exact E2|]. split; [exact E3|]. split; [rewrite (Pn_is i d j p _ D K); exact E4|]. split; [exact E6|exact E7].
  Qed.
  Lemma row_selected r i d : In r T -> nth_error ds i = Some d -> d_datum r = Z.of_nat i -> datums r = sel d.
  Proof. intros Hr D E. apply (row_sel eps ds L w (de_detailed e) (g_world _ _ _ _ _ _ Hgood) datums sel Hsel r i d Hr D E). Qed.

  (* ------------------------------------------------------------------ tables *)
  Definition part (Pd : Z -> bool) (tb : list drow) : list drow := filter (fun r => Pd (d_datum r)) (filter datums tb).
  Definition images_in (tb : list drow) (i : nat) : bool := existsb (fun r => (d_datum r =? Z.of_nat i)%Z) tb.
  Lemma images_in_iff tb i : images_in tb i = true <-> exists r, In r tb /\ d_datum r = Z.of_nat i.
  Proof. unfold images_in. rewrite existsb_exists. split; intros (r & A & B); exists r; split; try assumption; lia. Qed.
  Lemma part_In Pd tb r : In r (part Pd tb) <-> In r tb /\ datums r = true /\ Pd (d_datum r) = true.
  Proof. unfold part. rewrite !filter_In. tauto. Qed.

  Section Part.
    Variables (Pd : Z -> bool) (tb : list drow).
    Hypothesis Htb : In tb (de_detailed e).
    Notation on := (images_in (part Pd tb)).
    Lemma tb_T r : In r tb -> In r T.
    Proof. intros H. apply in_concat. exists tb. split; assumption. Qed.
    (* a row of an image that is on belongs to the part *)
    Lemma row_here i d r : on i = true -> nth_error ds i = Some d -> In r T -> d_datum r = Z.of_nat i -> In r (part Pd tb).
    Proof.
      intros O D Hr E. apply images_in_iff in O. destruct O as (x & Hx & Ex). apply part_In in Hx. destruct Hx as (Hx & Hd & HP).
      apply in_concat in Hr. destruct Hr as (tb2 & Htb2 & Hr2).
      assert (tb2 = tb).
      { apply In_nth_error in Htb, Htb2. destruct Htb as (k & Hk). destruct Htb2 as (k2 & Hk2).
        assert (k2 = k) by (apply (g_aligned _ _ _ _ _ _ Hgood k2 k tb2 tb r x Hk2 Hk Hr2 Hx); lia). congruence. }
      subst tb2. apply part_In. split; [exact Hr2|]. split.
      - rewrite (row_selected r i d (tb_T r Hr2) D E). rewrite <- (row_selected x i d (tb_T x Hx) D Ex). exact Hd.
      - rewrite E, <- Ex. exact HP.
    Qed.
    Lemma on_here i r : In r (part Pd tb) -> d_datum r = Z.of_nat i -> on i = true.
    Proof. intros H E. apply images_in_iff. exists r. split; assumption. Qed.
    Theorem part_pictured : pictured eps ds' L Gn Pn on (part Pd tb).
    Proof.
      assert (W := g_world _ _ _ _ _ _ Hgood). split.
      - intros r Hr. assert (Hr' := Hr). apply part_In in Hr'. destruct Hr' as (Ht & Hd & _). assert (HT := tb_T r Ht).
        destruct (w_rows _ _ _ _ _ W r HT) as [(i & d & g & p & v & s & D & A & B & C & F & V1 & V2)|[(i & d & g & D & A & B & F & V)|(i & d & p & v & s & D & A & B & F & V)]].
        + left. assert (Ed := cgt_datum _ _ _ _ _ A). assert (S : sel d = true) by (rewrite <- (row_selected r i d HT D Ed); exact Hd).
          destruct (gt_row_of i d g r D A (sel_gt d g V1 S)) as (j & J1 & J2 & ga & J3). destruct (pd_row_of i d p v s r D B (sel_pd d p v V2 S)) as (k & K1 & K2 & pa & K3).
          exists i, (pruned u d), j, k, v, s. split; [apply (on_here i r Hr Ed)|]. split; [rewrite nth_error_map, D; reflexivity|]. split; [exact J2|]. split; [exact K2|].
          rewrite (iou_tnth u d k j p pa g ga K3 J3). split; assumption.
        + right. left. assert (Ed := cgt_datum _ _ _ _ _ A). assert (S : sel d = true) by (rewrite <- (row_selected r i d HT D Ed); exact Hd).
          destruct (gt_row_of i d g r D A (sel_gt d g V S)) as (j & J1 & J2 & _). exists i, j. split; [apply (on_here i r Hr Ed)|]. split; assumption.
        + right. right. assert (Ed := cpd_datum _ _ _ _ _ _ _ A). assert (S : sel d = true) by (rewrite <- (row_selected r i d HT D Ed); exact Hd).
          destruct (pd_row_of i d p v s r D A (sel_pd d p v V S)) as (j & J1 & J2 & _). exists i, j, v, s. split; [apply (on_here i r Hr Ed)|]. split; assumption.
      - intros i d' g O D' Hg. apply prune_nth in D'. destruct D' as (d & D & ->). destruct (gt_position d g Hg) as (g0 & ga & K & N & V).
        destruct (u_gt d g0 V) as (Vw & S). destruct (w_gt_in _ _ _ _ _ W i d g0 D) as (r & Hr & A); [apply nth_error_Some; congruence|exact Vw|].
        exists r. split; [apply (row_here i d r O D Hr (cgt_datum _ _ _ _ _ A))|].
        destruct (gt_row_of i d g0 r D A V) as (j & J1 & J2 & ga' & J3).
        assert (j = g) by (apply (sorted_nth_eq _ (gts_sorted u d) j g g0); rewrite nth_error_map; [rewrite J3|rewrite K]; reflexivity). subst j. exact J2.
      - intros i d' p pa' v sc O D' Hp Hv. apply prune_nth in D'. destruct D' as (d & D & ->).
        destruct (pds_of u d p pa' Hp) as (p0 & K). destruct (pds_nth u d p p0 pa' K) as (pa & N & -> & _).
        apply in_combine_nth in Hv. apply labels_nth in Hv. destruct Hv as ((n & N1 & N2) & V). destruct (u_pd d p0 v V) as (Vw & S).
        destruct (w_pd_in _ _ _ _ _ W i d p0 pa n v sc D N N1 N2 Vw) as (r & Hr & A).
        exists r. split; [apply (row_here i d r O D Hr (cpd_datum _ _ _ _ _ _ _ A))|].
        destruct (pd_row_of i d p0 v sc r D A V) as (j & J1 & J2 & pa' & J3).
        assert (j = p) by (apply (sorted_nth_eq _ (pds_sorted u d) j p p0); rewrite nth_error_map; [rewrite J3|rewrite K]; reflexivity). subst j. exact J2.
      - intros i d' g p pa' v sc O D' Hg Hp Hv Ho. apply prune_nth in D'. destruct D' as (d & D & ->).
        destruct (gt_position d g Hg) as (g0 & ga & Kg & Ng & Vg). destruct (u_gt d g0 Vg) as (Vgw & S).
        destruct (pds_of u d p pa' Hp) as (p0 & K). destruct (pds_nth u d p p0 pa' K) as (pa & N & E & _). subst pa'.
        rewrite (iou_tnth u d p g p0 _ g0 ga K Kg) in Ho.
        apply in_combine_nth in Hv. apply labels_nth in Hv. destruct Hv as ((n & N1 & N2) & V). destruct (u_pd d p0 v V) as (Vw & _).
        destruct (w_pair_in _ _ _ _ _ W i d g0 p0 pa n v sc D) as (r & Hr & A & B); [apply nth_error_Some; congruence|assumption..|].
        exists r. split; [apply (row_here i d r O D Hr (cgt_datum _ _ _ _ _ A))|]. split.
        + destruct (gt_row_of i d g0 r D A Vg) as (j & J1 & J2 & ga' & J3).
          assert (j = g) by (apply (sorted_nth_eq _ (gts_sorted u d) j g g0); rewrite nth_error_map; [rewrite J3|rewrite Kg]; reflexivity). subst j. exact J2.
        + destruct (pd_row_of i d p0 v sc r D B V) as (j & J1 & J2 & pa' & J3).
          assert (j = p) by (apply (sorted_nth_eq _ (pds_sorted u d) j p p0); rewrite nth_error_map; [rewrite J3|rewrite K]; reflexivity). subst j. exact J2.
      - intros i _. assert (X := shows_pairs_ordered eps unit ds L Hin w e Hsh i).
        assert (Y : StronglySorted row_le (pairs_of i tb)) by (apply (sorted_of_concat row_le (pairs_of i) (de_detailed e) eq_refl (pairs_app i) X tb Htb)).
        unfold part, pairs_of in *. rewrite !(DetConfOrder.filter_filter_comm (fun r => is_pair r && (d_datum r =? Z.of_nat i)%Z)).
        apply StronglySorted_filter, StronglySorted_filter. exact Y.
    Qed.
  End Part.

  (* ------------------------------------------------------------------ images that are shown *)
  Lemma image_has_row i d : nth_error ds i = Some d -> shown_image (pruned u d) = true <-> exists r, In r T /\ datums r = true /\ d_datum r = Z.of_nat i.
  Proof.
    intros D. assert (W := g_world _ _ _ _ _ _ Hgood). unfold shown_image. rewrite orb_true_iff. split.
    - intros [H|H].
      + assert (Hl : 0 < length (t_gts (pruned u d))) by (apply negb_true_iff, Nat.eqb_neq in H; lia).
        destruct (gt_position d 0 Hl) as (g & ga & K & N & V). destruct (u_gt d g V) as (Vw & S).
        destruct (w_gt_in _ _ _ _ _ W i d g D) as (r & Hr & A); [apply nth_error_Some; congruence|exact Vw|].
        exists r. split; [exact Hr|]. split; [|apply (cgt_datum _ _ _ _ _ A)]. rewrite (row_selected r i d Hr D (cgt_datum _ _ _ _ _ A)). exact S.
      + apply existsb_exists in H. destruct H as (pa' & Hp & Hn). apply pd_In in Hp. destruct Hp as (p & pa & N & -> & _).
        destruct (scored_labels (kept_labels u d p pa)) as [|[v sc] rest] eqn:E; [discriminate|].
        assert (Hv : In (v, sc) (scored_labels (kept_labels u d p pa))) by (rewrite E; left; reflexivity).
        apply in_combine_nth in Hv. apply labels_nth in Hv. destruct Hv as ((n & N1 & N2) & V). destruct (u_pd d p v V) as (Vw & S).
        destruct (w_pd_in _ _ _ _ _ W i d p pa n v sc D N N1 N2 Vw) as (r & Hr & A).
        exists r. split; [exact Hr|]. split; [|apply (cpd_datum _ _ _ _ _ _ _ A)]. rewrite (row_selected r i d Hr D (cpd_datum _ _ _ _ _ _ _ A)). exact S.
    - intros (r & Hr & Hd & E). assert (S : sel d = true) by (rewrite <- (row_selected r i d Hr D E); exact Hd).
      assert (GT : forall j d0 g, nth_error ds j = Some d0 -> carries_gt ds L j g r -> v_gt w d0 g = true -> negb (length (t_gts (pruned u d)) =? 0) = true).
      { intros j d0 g D0 A V. assert (Ej := cgt_datum _ _ _ _ _ A). assert (j = i) by lia. subst j. assert (d0 = d) by congruence. subst d0.
        destruct (gt_row_of i d g r D A (sel_gt d g V S)) as (k & J1 & _). apply negb_true_iff, Nat.eqb_neq. lia. }
      destruct (w_rows _ _ _ _ _ W r Hr) as [(j & d0 & g & p & v & s & D0 & A & B & C & F & V1 & V2)|[(j & d0 & g & D0 & A & B & F & V)|(j & d0 & p & v & s & D0 & A & B & F & V)]].
      + left. apply (GT j d0 g D0 A V1).
      + left. apply (GT j d0 g D0 A V).
      + right. assert (Ej := cpd_datum _ _ _ _ _ _ _ A). assert (j = i) by lia. subst j. assert (d0 = d) by congruence. subst d0.
        destruct (pd_row_of i d p v s r D A (sel_pd d p v V S)) as (k & J1 & (d1 & pa & pi & D1 & N & Hv & _) & _).
        rewrite nth_error_map, D in D1. injection D1 as <-. apply existsb_exists. exists pa. split; [eapply nth_error_In; eauto|].
        destruct (scored_labels pa); [destruct Hv|reflexivity].
  Qed.

  (* the images of the parts, in the order of the tables, are the shown images in the
     order of the input *)
  Notation parts Pd := (map (part Pd) (de_detailed e)).
  Definition on_page (Pd : Z -> bool) (x : nat * detection) : bool := shown_image (snd x) && Pd (Z.of_nat (fst x)).
  Lemma parts_shown Pd : flat_map (fun tb => shown ds' (images_in tb)) (parts Pd) = filter (on_page Pd) (numbered ds').
  Proof.
    apply (sorted_same earlier); [unfold earlier; intros; lia| | |].
    - assert (O := g_order _ _ _ _ _ _ Hgood). apply ordered_tables in O. rewrite flat_map_concat_map, map_map, <- flat_map_concat_map.
      apply (sorted_concat_map _ _ _ _ O).
      + intros tb _. apply StronglySorted_filter. apply numbered_sorted.
      + intros a b _ _ Hab [i d] [j d2] Hx Hy. apply filter_In in Hx, Hy. destruct Hx as (_ & Hx). destruct Hy as (_ & Hy). cbn [fst] in *.
        apply images_in_iff in Hx, Hy. destruct Hx as (x & Hx & Ex). destruct Hy as (y & Hy & Ey). apply part_In in Hx, Hy.
        specialize (Hab x y (proj1 Hx) (proj1 Hy)). unfold earlier. cbn. lia.
    - apply StronglySorted_filter. apply numbered_sorted.
    - intros [i d']. rewrite in_flat_map, filter_In. unfold on_page. cbn [fst snd]. split.
      + intros (tb' & Ht & Hx). apply in_map_iff in Ht. destruct Ht as (tb & <- & Htb). apply shown_In in Hx. destruct Hx as (O & D').
        split; [apply numbered_In; exact D'|]. apply prune_nth in D'. destruct D' as (d & D & ->).
        apply images_in_iff in O. destruct O as (r & Hr & E). apply part_In in Hr. destruct Hr as (Hr & Hd & HP). apply andb_true_iff. split; [|rewrite <- E; exact HP].
        apply (image_has_row i d D). exists r. split; [apply (tb_T tb Htb r Hr)|]. split; assumption.
      + intros (D' & H). apply numbered_In in D'. assert (D'' := D'). apply prune_nth in D''. destruct D'' as (d & D & ->). apply andb_true_iff in H. destruct H as (H & HP).
        apply (image_has_row i d D) in H. destruct H as (r & Hr & Hd & E). apply in_concat in Hr. destruct Hr as (tb & Htb & Hr).
        exists (part Pd tb). split; [apply in_map; exact Htb|]. apply shown_In. split; [|exact D'].
        apply images_in_iff. exists r. split; [apply part_In; split; [exact Hr|]; split; [exact Hd|rewrite E; exact HP]|exact E].
  Qed.
End Pictured.
