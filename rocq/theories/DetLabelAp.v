(* Object detection: the precision-recall curve and AP of a label whose scores are
   distinct depend on the annotations of this label and the order of the scores only. *)
From Verif Require Import Prelude Counting CacheModel CacheSpec SortProofs FlowModel ClsModel ClsLabelProofs
  DetModel DetSpec DetMain DetFlowModel DetApProofs DetLocalProofs DetOrderProofs DetReportModel DetEnd DetMore DetPickSpec DetPick DetAddSpec DetAddProofs
  DetFilterSpec DetFilterProofs DetFilterEntries DetFilterPruned DetFilterMain DetLabelSpec DetLabelProofs.
From Coq Require Import String Lia QArith Qminmax.
Local Open Scope nat_scope.
Local Open Scope list_scope.
Local Notation length := List.length (only parsing).

(* ------------------------------------------------------------------ *)
(** * The choice of a row *)

Lemma r_picks_spec row k : r_picks row k = true <->
  forall j, j < length row -> (j < k -> (nth j row 0 < nth k row 0)%Z) /\ (nth j row 0 <= nth k row 0)%Z.
Proof.
  unfold r_picks. rewrite forallb_forall. split.
  - intros H j Hj. specialize (H j). rewrite in_seq in H. specialize (H ltac:(lia)). destruct (Nat.ltb_spec j k); lia.
  - intros H j Hj. apply in_seq in Hj. destruct (H j ltac:(lia)) as (A & B). destruct (Nat.ltb_spec j k); lia.
Qed.
Lemma r_picks_unique row k k' : k < length row -> k' < length row -> r_picks row k = true -> r_picks row k' = true -> k = k'.
Proof.
  rewrite !r_picks_spec. intros Hk Hk' A B. destruct (A k' Hk') as (A1 & A2). destruct (B k Hk) as (B1 & B2). lia.
Qed.
Lemma r_picks_exists row : row <> [] -> exists k, k < length row /\ r_picks row k = true.
Proof.
  induction row as [|a row IH]; intros H; [congruence|]. destruct row as [|b row].
  - exists 0. split; [cbn; lia|]. apply r_picks_spec. intros j Hj. cbn in Hj. assert (j = 0) by lia. subst j. cbn. lia.
  - destruct IH as (k & Hk & P); [discriminate|]. rewrite r_picks_spec in P. set (row' := b :: row) in *.
    destruct (Z_le_gt_dec (nth k row' 0%Z) a) as [X|X].
    + exists 0. split; [cbn; lia|]. apply r_picks_spec. intros [|j] Hj; cbn [nth]; [lia|]. cbn [length] in Hj. destruct (P j ltac:(lia)). lia.
    + exists (S k). split; [cbn [length]; lia|]. apply r_picks_spec. intros [|j] Hj; cbn [nth]; [lia|]. cbn [length] in Hj. destruct (P j ltac:(lia)). lia.
Qed.
Definition r_best (eps : Z) (row : list Z) : option (nat * Z) :=
  match find (r_picks row) (seq 0 (length row)) with
  | Some k => if (eps <=? nth k row 0)%Z then Some (k, nth k row 0%Z) else None
  | None => None
  end.
Lemma r_best_some eps row k : k < length row -> r_picks row k = true -> (eps <= nth k row 0)%Z -> r_best eps row = Some (k, nth k row 0%Z).
Proof.
  intros Hk P He. unfold r_best. destruct (find (r_picks row) (seq 0 (length row))) as [k'|] eqn:F.
  - apply find_some in F. destruct F as (I & F). apply in_seq in I. assert (k' = k) by (apply (r_picks_unique row); auto; lia). subst k'.
    rewrite (proj2 (Z.leb_le _ _) He). reflexivity.
  - assert (A := find_none _ _ F k). rewrite in_seq in A. rewrite A in P by lia. discriminate.
Qed.
Lemma r_best_none eps row : (forall k, k < length row -> (nth k row 0 < eps)%Z) -> r_best eps row = None.
Proof.
  intros H. unfold r_best. destruct (find (r_picks row) (seq 0 (length row))) as [k'|] eqn:F; [|reflexivity].
  apply find_some in F. destruct F as (I & F). apply in_seq in I. specialize (H k' ltac:(lia)). destruct (Z.leb_spec eps (nth k' row 0%Z)); [lia|reflexivity].
Qed.

(* ------------------------------------------------------------------ *)
(** * Entries and rows *)

Definition place (d : detection) (v : string) (g : nat) : nat := length (filter (fun g' => g' <? g) (gts_of d v)).
Lemma sorted_filter_lt (l : list nat) : StronglySorted lt l -> forall k, k < length l -> length (filter (fun x => x <? nth k l 0) l) = k.
Proof.
  intros H. induction H as [|a l H IH F]; intros k Hk; [cbn in Hk; lia|]. destruct k as [|k]; cbn [nth filter].
  - rewrite Nat.ltb_irrefl. rewrite Forall_forall in F.
    assert (E : filter (fun x => x <? a) l = []). { clear -F. induction l as [|b l IHl]; [reflexivity|]. cbn [filter]. assert (a < b) by (apply F; left; reflexivity).
      destruct (Nat.ltb_spec b a); [lia|]. apply IHl. intros x Hx. apply F. right. exact Hx. }
    rewrite E. reflexivity.
  - cbn in Hk. assert (A : a < nth k l 0). { rewrite Forall_forall in F. apply F. apply nth_In. lia. }
    rewrite (proj2 (Nat.ltb_lt _ _) A). cbn [length]. rewrite IH by lia. reflexivity.
Qed.
Lemma place_nth d v k : k < length (gts_of d v) -> place d v (nth k (gts_of d v) 0) = k.
Proof. apply sorted_filter_lt. apply gts_of_sorted. Qed.

Notation tri := (nat * Z * option (nat * Z))%type.
Definition abs3 (ds : list detection) (v : string) (x : aentry) : tri :=
  (x_i x, x_sc x, match x_c x with
                  | Some g => Some (match nth_error ds (x_i x) with Some d => place d v g | None => 0 end, x_z x)
                  | None => None
                  end).
Definition hit3 (t : Z) (pre : list tri) (y : tri) : bool :=
  match snd y with
  | Some (k, z) => (t <=? z)%Z && negb (existsb (fun y' => match snd y' with
                     | Some (k', z') => Nat.eqb (fst (fst y')) (fst (fst y)) && Nat.eqb k' k && (t <=? z')%Z | None => false end) pre)
  | None => false
  end.
Fixpoint hits3 (eps t : Z) (pre l : list tri) : list bool :=
  match l with
  | [] => []
  | y :: l' => ((eps <? snd (fst y))%Z && hit3 t pre y) :: hits3 eps t (pre ++ [y]) l'
  end.

Lemma pds_of_In d v p sc : In (p, sc) (pds_of d v) <->
  exists pa n, nth_error (t_pds d) p = Some pa /\ nth_error (a_labels pa) n = Some v /\ nth_error (a_scores pa) n = Some sc.
Proof.
  unfold pds_of. rewrite in_flat_map. split.
  - intros ([p' pa] & H & I). apply numbered_In in H. apply in_map_iff in I. destruct I as ([l s] & E & I). cbn [fst snd] in E. injection E as E1 E2. subst p' s.
    apply filter_In in I. destruct I as (I & El). apply String.eqb_eq in El. cbn [fst] in El. subst l. apply In_nth_error in I. destruct I as (n & I).
    exists pa, n. split; [exact H|]. clear -I. revert n I. cbn [snd] in *. generalize (a_labels pa) (a_scores pa). intros ls. induction ls as [|l ls IH]; intros [|s ss] [|n] I; cbn in *; try discriminate.
    + injection I as -> ->. split; reflexivity.
    + apply (IH ss n I).
  - intros (pa & n & H & Hl & Hs). exists (p, pa). split; [apply numbered_In; exact H|]. apply in_map_iff. exists (v, sc). split; [reflexivity|].
    apply filter_In. split; [|cbn; apply String.eqb_refl]. cbn [snd]. clear -Hl Hs. revert n Hl Hs. generalize (a_labels pa) (a_scores pa). intros ls. induction ls as [|l ls IH]; intros [|s ss] [|n] Hl Hs; cbn in *; try discriminate.
    + left. congruence.
    + right. apply (IH ss n); assumption.
Qed.

Section One.
  Variables (eps unit : Z) (ds : list detection) (sel : detection -> bool) (v : string).
  Hypothesis Heps : (0 < eps)%Z.
  Hypothesis Hin : det_input unit ds.
  Hypothesis Hone : Forall single_pd_labels ds.
  Let u := by_selection full_view sel.

  Lemma plain_label d i g ga : nth_error ds i = Some d -> nth_error (t_gts d) g = Some ga -> (a_labels ga = [v] <-> has_label v ga = true).
  Proof.
    intros Hi Hg. unfold det_input in Hin. assert (H := Hin). rewrite Forall_forall in H. destruct (H d (nth_error_In _ _ Hi)) as (O & P & _).
    specialize (P ga (nth_error_In _ _ Hg)). unfold det_ok in O. rewrite !andb_true_iff in O. destruct O as ((O & _) & _). rewrite forallb_forall in O.
    specialize (O ga (nth_error_In _ _ Hg)). unfold ann_ok in O. rewrite P in O. cbn in O.
    unfold has_label. destruct (a_labels ga) as [|x [|y l]]; try discriminate. cbn [existsb]. rewrite orb_false_r, String.eqb_eq. split; congruence.
  Qed.
  Lemma u_gt d g : v_gt u d g = sel d.
  Proof. unfold u, by_selection, restrict. cbn. destruct (sel d); reflexivity. Qed.
  Lemma u_pd d p l : v_pd u d p l = sel d.
  Proof. unfold u, by_selection, restrict. cbn. destruct (sel d); reflexivity. Qed.

  Lemma row_nth d p k : k < length (gts_of d v) -> nth k (map (t_iou d p) (gts_of d v)) 0%Z = t_iou d p (nth k (gts_of d v) 0).
  Proof. intros H. apply (nth_map_in (t_iou d p)). exact H. Qed.

  Lemma entry_row x : entry eps ds u v x -> exists d, nth_error ds (x_i x) = Some d /\ sel d = true /\ In (x_p x, x_sc x) (pds_of d v) /\
    abs3 ds v x = (x_i x, x_sc x, r_best eps (map (t_iou d (x_p x)) (gts_of d v))) /\
    (forall g, x_c x = Some g -> In g (gts_of d v)).
  Proof.
    intros (d & pa & n & Hi & Hp & Hn & Hs & Vp & Hc). rewrite u_pd in Vp. exists d. split; [exact Hi|]. split; [exact Vp|].
    split; [apply pds_of_In; exists pa, n; auto|]. unfold abs3. rewrite Hi. set (G := gts_of d v). set (row := map (t_iou d (x_p x)) G).
    assert (EL : length row = length G) by apply map_length.
    assert (RN : forall k, k < length G -> nth k row 0%Z = t_iou d (x_p x) (nth k G 0)) by (intros k Hk; apply row_nth; exact Hk).
    assert (NG : forall k, k < length G -> exists ga, nth_error (t_gts d) (nth k G 0) = Some ga /\ a_labels ga = [v]).
    { intros k Hk. assert (I : In (nth k G 0) G) by (apply nth_In; exact Hk). apply gts_of_In in I. destruct I as (ga & Hg & Hl). exists ga. split; [exact Hg|].
      apply (plain_label d (x_i x) (nth k G 0) ga Hi Hg). exact Hl. }
    destruct (x_c x) as [g|].
    - destruct Hc as ((ga & Hg & Hl) & Vg & Ho & Ez & Hm & Hf).
      assert (I : In g G). { apply gts_of_In. exists ga. split; [exact Hg|]. apply (plain_label d (x_i x) g ga Hi Hg). exact Hl. }
      split; [|intros g0 Eg; injection Eg as <-; exact I].
      destruct (In_nth G g 0 I) as (k & Hk & Ek). assert (Ep : place d v g = k) by (rewrite <- Ek; apply place_nth; exact Hk).
      assert (P : r_picks row k = true).
      { apply r_picks_spec. intros j Hj. rewrite EL in Hj. rewrite !RN by assumption. rewrite Ek. destruct (NG j Hj) as (gj & Hgj & Hlj).
        rewrite <- Ez. split.
        - intros Hlt. apply (Hf _ gj Hgj Hlj); [rewrite u_gt; exact Vp|]. rewrite <- Ek.
          apply Nat.ltb_lt. rewrite (sorted_nth_lt _ (gts_of_sorted d v)) by assumption. apply Nat.ltb_lt. exact Hlt.
        - apply (Hm _ gj Hgj Hlj). rewrite u_gt. exact Vp. }
      rewrite (r_best_some eps row k); [|lia|exact P|rewrite RN, Ek by exact Hk; exact Ho]. rewrite Ep, RN, Ek by exact Hk. rewrite Ez. reflexivity.
    - split; [|intros g Eg; discriminate]. destruct Hc as (Hno & _). rewrite r_best_none; [reflexivity|]. intros k Hk. rewrite EL in Hk. rewrite RN by exact Hk. destruct (NG k Hk) as (ga & Hg & Hl).
      apply (Hno v _ ga (nth_error_In _ _ Hn)); [rewrite u_pd; exact Vp|exact Hg|exact Hl|rewrite u_gt; exact Vp].
  Qed.

  Lemma row_entry i d p sc : nth_error ds i = Some d -> sel d = true -> In (p, sc) (pds_of d v) ->
    exists x, entry eps ds u v x /\ x_i x = i /\ x_p x = p /\ x_sc x = sc.
  Proof.
    intros Hi Hs I. apply pds_of_In in I. destruct I as (pa & n & Hp & Hn & Hsc). set (G := gts_of d v). set (row := map (t_iou d p) G).
    assert (EL : length row = length G) by apply map_length.
    assert (RN : forall k, k < length G -> nth k row 0%Z = t_iou d p (nth k G 0)) by (intros k Hk; apply row_nth; exact Hk).
    assert (GN : forall g ga, nth_error (t_gts d) g = Some ga -> a_labels ga = [v] -> exists k, k < length G /\ nth k G 0 = g).
    { intros g ga Hg Hl. assert (X : In g G) by (apply gts_of_In; exists ga; split; [exact Hg|apply (plain_label d i g ga Hi Hg); exact Hl]).
      destruct (In_nth G g 0 X) as (k & A & B). eauto. }
    assert (L1 : forall v', In v' (a_labels pa) -> v' = v).
    { intros v' H'. assert (H := Hone). rewrite Forall_forall in H. specialize (H d (nth_error_In _ _ Hi) pa (nth_error_In _ _ Hp)).
      assert (Hv := nth_error_In _ _ Hn). destruct (a_labels pa) as [|y [|z l]]; cbn in H; try discriminate. destruct Hv as [Hv|[]], H' as [H'|[]]. congruence. }
    assert (Hbest : (exists k, k < length G /\ r_picks row k = true /\ (eps <= nth k row 0)%Z) \/ (forall k, k < length G -> (nth k row 0 < eps)%Z)).
    { destruct G as [|g0 G0] eqn:EG; [right; intros k Hk; cbn in Hk; lia|]. rewrite <- EG in *.
      destruct (r_picks_exists row) as (k & Hk & P). { intros E. rewrite E, EG in EL. discriminate. }
      destruct (Z_le_gt_dec eps (nth k row 0%Z)) as [X|X]; [left; exists k; split; [lia|auto]|right].
      intros j Hj. rewrite r_picks_spec in P. destruct (P j ltac:(lia)). lia. }
    destruct Hbest as [(k & Hk & P & Ho)|Hlow].
    - exists (MkA i p sc (nth k row 0%Z) (Some (nth k G 0))). cbn [x_i x_p x_sc]. split; [|auto]. exists d, pa, n. cbn [x_i x_p x_sc x_z x_c].
      split; [exact Hi|]. split; [exact Hp|]. split; [exact Hn|]. split; [exact Hsc|]. split; [rewrite u_pd; exact Hs|].
      assert (X : In (nth k G 0) G) by (apply nth_In; exact Hk). apply gts_of_In in X. destruct X as (ga & Hg & Hl). rewrite r_picks_spec in P.
      split; [exists ga; split; [exact Hg|apply (plain_label d i _ ga Hi Hg); exact Hl]|]. split; [rewrite u_gt; exact Hs|].
      split; [rewrite <- RN by exact Hk; exact Ho|]. split; [apply RN; exact Hk|]. split.
      + intros g' ga' Hg' Hl' _. destruct (GN g' ga' Hg' Hl') as (j & Hj & <-). rewrite <- RN by exact Hj. apply P. lia.
      + intros g' ga' Hg' Hl' _ Hlt. destruct (GN g' ga' Hg' Hl') as (j & Hj & <-). rewrite <- RN by exact Hj. apply P; [lia|].
        apply Nat.ltb_lt. rewrite <- (sorted_nth_lt _ (gts_of_sorted d v)) by assumption. apply Nat.ltb_lt. exact Hlt.
    - (* no ground truth of the label: the best overlap with any ground truth *)
      set (all := map (t_iou d p) (seq 0 (length (t_gts d)))). assert (EA : length all = length (t_gts d)) by (unfold all; rewrite map_length, seq_length; reflexivity).
      assert (AN : forall g, g < length (t_gts d) -> nth g all 0%Z = t_iou d p g).
      { intros g Hg. unfold all. rewrite (nth_map_in (t_iou d p)) by (rewrite seq_length; exact Hg). rewrite seq_nth by exact Hg. reflexivity. }
      assert (Hno : forall v' g ga, In v' (a_labels pa) -> v_pd u d p v' = true -> nth_error (t_gts d) g = Some ga -> a_labels ga = [v'] -> v_gt u d g = true -> (t_iou d p g < eps)%Z).
      { intros v' g ga Hv' _ Hg Hl _. rewrite (L1 v' Hv') in Hl. destruct (GN g ga Hg Hl) as (k & Hk & <-). rewrite <- RN by exact Hk. apply Hlow. exact Hk. }
      assert (HA : (exists k, k < length all /\ r_picks all k = true /\ (eps <= nth k all 0)%Z) \/ (forall k, k < length all -> (nth k all 0 < eps)%Z)).
      { destruct all as [|a0 A0] eqn:EAl; [right; intros k Hk; cbn in Hk; lia|]. rewrite <- EAl in *.
        destruct (r_picks_exists all) as (k & Hk & P). { rewrite EAl. discriminate. }
        destruct (Z_le_gt_dec eps (nth k all 0%Z)) as [X|X]; [left; exists k; auto|right]. intros j Hj. rewrite r_picks_spec in P. destruct (P j Hj). lia. }
      destruct HA as [(k & Hk & P & Ho)|Hz].
      + exists (MkA i p sc (nth k all 0%Z) None). cbn [x_i x_p x_sc]. split; [|auto]. exists d, pa, n. cbn [x_i x_p x_sc x_z x_c].
        split; [exact Hi|]. split; [exact Hp|]. split; [exact Hn|]. split; [exact Hsc|]. split; [rewrite u_pd; exact Hs|]. split; [exact Hno|].
        left. exists k. rewrite EA in Hk. rewrite AN in Ho by exact Hk. split; [exact Hk|]. split; [rewrite u_gt; exact Hs|]. split; [exact Ho|]. split; [apply AN; exact Hk|].
        intros g' Hg' _. rewrite <- (AN g' Hg'). rewrite r_picks_spec in P. apply P. lia.
      + exists (MkA i p sc 0%Z None). cbn [x_i x_p x_sc]. split; [|auto]. exists d, pa, n. cbn [x_i x_p x_sc x_z x_c].
        split; [exact Hi|]. split; [exact Hp|]. split; [exact Hn|]. split; [exact Hsc|]. split; [rewrite u_pd; exact Hs|]. split; [exact Hno|].
        right. split; [reflexivity|]. intros g Hg _. rewrite <- (AN g Hg). apply Hz. lia.
  Qed.

  Lemma hits_abs t l : forall pre, (forall x, In x (pre ++ l) -> entry eps ds u v x) ->
    ahits eps t pre l = hits3 eps t (map (abs3 ds v) pre) (map (abs3 ds v) l).
  Proof.
    induction l as [|x l IH]; intros pre H; [reflexivity|]. cbn [ahits hits3 map]. f_equal.
    - f_equal. unfold ahit, hit3. destruct (entry_row x) as (d & Hi & _ & _ & _ & Hg); [apply H; apply in_or_app; right; left; reflexivity|].
      destruct (x_c x) as [g|] eqn:Ec; unfold abs3 at 1; cbn [snd]; rewrite Ec; [|reflexivity]. f_equal. f_equal. rewrite existsb_map. apply existsb_ext_in.
      intros y Hy. destruct (entry_row y) as (d' & Hi' & _ & _ & _ & Hg'); [apply H; apply in_or_app; left; exact Hy|].
      unfold abs3 at 1. cbn [snd]. destruct (x_c y) as [g'|] eqn:Ec'; [|reflexivity]. rewrite Hi, Hi'. unfold abs3. cbn [fst].
      destruct (Nat.eqb_spec (x_i y) (x_i x)) as [E|E]; [|reflexivity]. cbn [andb]. f_equal. assert (d' = d) by congruence. subst d'.
      specialize (Hg g eq_refl). specialize (Hg' g' eq_refl). destruct (In_nth _ _ 0 Hg) as (k & Hk & Ek). destruct (In_nth _ _ 0 Hg') as (k' & Hk' & Ek').
      rewrite <- Ek, <- Ek', !place_nth by assumption. apply eq_true_iff_eq. rewrite !Nat.eqb_eq. split; [|congruence].
      intros E2. apply (sorted_nth_eq _ (gts_of_sorted d v) k' k (nth k' (gts_of d v) 0)); [apply nth_error_nth'; exact Hk'|rewrite E2; apply nth_error_nth'; exact Hk].
    - rewrite IH by (intros y Hy; apply H; rewrite <- app_assoc in Hy; exact Hy). rewrite map_app. reflexivity.
  Qed.
End One.

(* ------------------------------------------------------------------ *)
(** * Two labels that look alike *)

Definition by_score (x y : tri) : Prop := (snd (fst y) < snd (fst x))%Z.
Lemma by_score_eq (l1 l2 : list tri) : StronglySorted by_score l1 -> StronglySorted by_score l2 -> (forall y, In y l1 <-> In y l2) -> l1 = l2.
Proof.
  intros S1 S2 H.
  assert (ND : forall l : list tri, StronglySorted by_score l -> NoDup l).
  { intros l S. induction S as [|a l S IH F]; constructor; [|exact IH]. intros I. rewrite Forall_forall in F. specialize (F a I). unfold by_score in F. lia. }
  apply (sorted_same_In by_score); [|exact S1|exact S2|apply NoDup_Permutation; auto]. intros x y _ _ A B. unfold by_score in *. lia.
Qed.
Lemma nodup_l {A} (l1 l2 : list A) : NoDup (l1 ++ l2) -> NoDup l1.
Proof. induction l1 as [|a l1 IH]; intros H; [constructor|]. inversion H; subst. constructor; [|apply IH; assumption]. intros I. apply H2. apply in_or_app. left. exact I. Qed.
Lemma nodup_r {A} (l1 l2 : list A) : NoDup (l1 ++ l2) -> NoDup l2.
Proof. induction l1 as [|a l1 IH]; intros H; [exact H|]. inversion H; subst. apply IH. assumption. Qed.
Lemma NoDup_flat_nth {A B} (h : A -> list B) l : NoDup (flat_map h l) -> forall i a j x i' a' j', nth_error l i = Some a -> nth_error (h a) j = Some x ->
  nth_error l i' = Some a' -> nth_error (h a') j' = Some x -> i = i' /\ j = j'.
Proof.
  induction l as [|b l IH]; intros H i a j x i' a' j' Hi Hj Hi' Hj'; [destruct i; discriminate|]. cbn [flat_map] in H.
  assert (N1 : NoDup (h b)) by (exact (nodup_l _ _ H)). assert (N2 : NoDup (flat_map h l)) by (exact (nodup_r _ _ H)).
  assert (D : forall y, In y (h b) -> ~ In y (flat_map h l)).
  { intros y Hy Hy'. apply in_split in Hy'. destruct Hy' as (l1 & l2 & E). rewrite E in H. rewrite app_assoc in H. apply NoDup_remove_2 in H. apply H. apply in_or_app. left. apply in_or_app. left. exact Hy. }
  destruct i as [|i], i' as [|i']; cbn in Hi, Hi'.
  - injection Hi as <-. injection Hi' as <-. split; [reflexivity|]. apply (proj1 (NoDup_nth_error (h b)) N1); [apply nth_error_Some; congruence|congruence].
  - exfalso. injection Hi as <-. apply (D x); [apply (nth_error_In _ _ Hj)|]. apply in_flat_map. exists a'. split; [apply (nth_error_In _ _ Hi')|apply (nth_error_In _ _ Hj')].
  - exfalso. injection Hi' as <-. apply (D x); [apply (nth_error_In _ _ Hj')|]. apply in_flat_map. exists a. split; [apply (nth_error_In _ _ Hi)|apply (nth_error_In _ _ Hj)].
  - destruct (IH N2 i a j x i' a' j' Hi Hj Hi' Hj'). split; congruence.
Qed.
Lemma table_row d v p sc : In (p, sc) (pds_of d v) -> In (sc, map (t_iou d p) (gts_of d v)) (snd (label_table d v)).
Proof. intros H. unfold label_table. cbn [snd]. apply in_map_iff. exists (p, sc). split; [reflexivity|exact H]. Qed.
Lemma row_table d v sc row : In (sc, row) (snd (label_table d v)) -> exists p, In (p, sc) (pds_of d v) /\ row = map (t_iou d p) (gts_of d v).
Proof. unfold label_table. cbn [snd]. rewrite in_map_iff. intros ([p s] & E & H). cbn [fst snd] in E. injection E as E1 E2. subst. eauto. Qed.

Lemma evaluator_shows eps unit ds : det_input unit ds -> forall e, det_evaluator eps unit ds e -> exists L, shows eps unit ds L full_view e.
Proof. intros Hin e He. destruct (end_facts eps unit ds Hin e He) as (L & _ & _ & _ & B & _). exists L. apply Shows_built; assumption. Qed.

Section Sorted.
  Variables (eps unit : Z) (ds : list detection) (sel : detection -> bool) (v : string).
  Hypothesis Heps : (0 < eps)%Z.
  Hypothesis Hin : det_input unit ds.
  Hypothesis Hone : Forall single_pd_labels ds.
  Hypothesis Hnd : NoDup (label_scores sel ds v).
  Let u := by_selection full_view sel.
  Lemma entries_by_score x y : entry eps ds u v x -> entry eps ds u v y -> x_sc x = x_sc y -> x = y.
  Proof.
    intros Ex Ey E. destruct (entry_row eps unit ds sel v Hin x Ex) as (d & Hi & Hs & I & _). destruct (entry_row eps unit ds sel v Hin y Ey) as (d' & Hi' & Hs' & I' & _).
    assert (P : forall d0 p sc, sel d0 = true -> In (p, sc) (pds_of d0 v) -> exists j, nth_error (pds_of d0 v) j = Some (p, sc) /\
      nth_error ((fun d => if sel d then map fst (snd (label_table d v)) else []) d0) j = Some sc).
    { intros d0 p sc Hs0 H0. apply In_nth_error in H0. destruct H0 as (j & Hj). exists j. split; [exact Hj|]. cbn beta. rewrite Hs0. unfold label_table. cbn [snd].
      rewrite map_map. cbn [fst]. apply (map_nth_error (fun ps : nat * Z => snd ps)) in Hj. exact Hj. }
    destruct (P d _ _ Hs I) as (j & Hj & Aj). destruct (P d' _ _ Hs' I') as (j' & Hj' & Aj'). rewrite <- E in Aj'.
    destruct (NoDup_flat_nth _ ds Hnd (x_i x) d j (x_sc x) (x_i y) d' j' Hi Aj Hi' Aj') as (Ei & Ej). subst j'.
    assert (d' = d) by congruence. subst d'. apply (entry_unique eps ds u v); auto; [apply single_distinct; exact Hone|congruence].
  Qed.
  Lemma canonical_by_score l : canonical eps ds u v l -> StronglySorted by_score (map (abs3 ds v) l).
  Proof.
    intros [A B C]. assert (H : forall x, In x l -> entry eps ds u v x) by (intros x; apply A). clear A.
    induction C as [|a l C IH F]; [constructor|]. apply NoDup_cons_iff in B. destruct B as (N1 & N2). cbn [map]. constructor; [apply IH; [assumption|intros x Hx; apply H; right; exact Hx]|].
    rewrite Forall_map. rewrite Forall_forall in F |- *. intros y Hy. specialize (F y Hy). unfold by_score, abs3. cbn [fst snd]. unfold a_le in F.
    assert (x_sc a <> x_sc y). { intros E. assert (a = y) by (apply entries_by_score; [apply H; left; reflexivity|apply H; right; exact Hy|exact E]). rewrite <- H0 in Hy. contradiction. }
    lia.
  Qed.
  Lemma canonical_rows l : canonical eps ds u v l -> forall y, In y (map (abs3 ds v) l) <->
    exists i d r, nth_error ds i = Some d /\ sel d = true /\ In r (snd (label_table d v)) /\ y = (i, fst r, r_best eps (snd r)).
  Proof.
    intros [A _ _] y. rewrite in_map_iff. split.
    - intros (x & <- & Hx). apply A in Hx. destruct (entry_row eps unit ds sel v Hin x Hx) as (d & Hi & Hs & I & E & _).
      exists (x_i x), d, (x_sc x, map (t_iou d (x_p x)) (gts_of d v)). split; [exact Hi|]. split; [exact Hs|]. split; [apply table_row; exact I|exact E].
    - intros (i & d & [sc row] & Hi & Hs & I & ->). apply row_table in I. destruct I as (p & I & ->).
      destruct (row_entry eps unit ds sel v Hin Hone i d p sc Hi Hs I) as (x & Hx & <- & Ep & Esc). exists x. split; [|apply A; exact Hx].
      destruct (entry_row eps unit ds sel v Hin x Hx) as (d' & Hi' & _ & _ & E & _). assert (d' = d) by congruence. subst d' p sc. exact E.
  Qed.
End Sorted.

Definition move (f : Z -> Z) (y : tri) : tri := (fst (fst y), f (snd (fst y)), snd y).
Lemma hits_move eps t f l : forall pre, (forall y, In y (pre ++ l) -> (eps <? snd (fst y))%Z = (eps <? f (snd (fst y)))%Z) ->
  hits3 eps t (map (move f) pre) (map (move f) l) = hits3 eps t pre l.
Proof.
  induction l as [|y l IH]; intros pre H; [reflexivity|]. cbn [hits3 map]. f_equal.
  - unfold move at 1. cbn [fst snd]. rewrite <- H by (apply in_or_app; right; left; reflexivity). f_equal. unfold hit3. unfold move at 1. cbn [snd].
    destruct (snd y) as [[k z]|]; [|reflexivity]. f_equal. f_equal. rewrite existsb_map. reflexivity.
  - rewrite <- (IH (pre ++ [y])) by (intros z Hz; apply H; rewrite <- app_assoc in Hz; exact Hz). rewrite map_app. reflexivity.
Qed.

Section AlikeAp.
  Variables (eps unit : Z) (ds ds' : list detection) (sel sel' : detection -> bool) (datums datums' : drow -> bool) (e e' : deval).
  Hypothesis Heps : (0 < eps)%Z.
  Hypothesis Hu : (0 <= unit)%Z.
  Hypothesis Hin : det_input unit ds.
  Hypothesis Hin' : det_input unit ds'.
  Hypothesis Hsel : det_selects ds datums sel.
  Hypothesis Hsel' : det_selects ds' datums' sel'.
  Hypothesis He : det_evaluator eps unit ds e.
  Hypothesis He' : det_evaluator eps unit ds' e'.
  Hypothesis Hfew : few_det_labels ds.
  Hypothesis Hfew' : few_det_labels ds'.
  Hypothesis Hone : Forall single_pd_labels ds.
  Hypothesis Hone' : Forall single_pd_labels ds'.
  Variables (v v' : string) (vi vi' : nat).
  Hypothesis Hv : label_no e v vi.
  Hypothesis Hv' : label_no e' v' vi'.
  Variable f : Z -> Z.
  Hypothesis Halike : label_alike f sel sel' ds ds' v v'.
  Hypothesis Hf : increasing_on eps f (label_scores sel ds v).
  Hypothesis Hnd : NoDup (label_scores sel ds v).

  Lemma alike_nth i d : nth_error ds i = Some d -> exists d', nth_error ds' i = Some d' /\ sel d = sel' d' /\ (sel d = true -> label_table d' v' = rescored f (label_table d v)).
  Proof.
    clear -Halike. revert i. induction Halike as [|x x' l l' H F IH]; intros [|i] Hi; cbn in Hi; try discriminate; [injection Hi as <-; exists x'; auto|apply (IH F i Hi)].
  Qed.
  Lemma alike_nth' i d' : nth_error ds' i = Some d' -> exists d, nth_error ds i = Some d /\ sel d = sel' d' /\ (sel d = true -> label_table d' v' = rescored f (label_table d v)).
  Proof.
    clear -Halike. revert i. induction Halike as [|x x' l l' H F IH]; intros [|i] Hi; cbn in Hi; try discriminate; [injection Hi as <-; exists x; auto|apply (IH F i Hi)].
  Qed.
  Lemma alike_scores : label_scores sel' ds' v' = map f (label_scores sel ds v).
  Proof.
    unfold label_scores. clear -Halike. induction Halike as [|x x' l l' (E & H) F IH]; [reflexivity|]. cbn [flat_map]. rewrite map_app, IH by exact F. f_equal.
    rewrite <- E. destruct (sel x) eqn:Es; [|reflexivity]. rewrite (H eq_refl). unfold rescored. cbn [snd]. rewrite !map_map. reflexivity.
  Qed.
  Lemma alike_nodup : NoDup (label_scores sel' ds' v').
  Proof.
    rewrite alike_scores. revert Hf Hnd. generalize (label_scores sel ds v). intros l H N. induction N as [|a l Ha N IH]; [constructor|]. cbn. constructor.
    - intros I. apply in_map_iff in I. destruct I as (b & E & I). destruct (Z.lt_trichotomy a b) as [X|[X|X]]; [|subst b; contradiction|].
      + assert (Y := proj2 (H a (or_introl eq_refl)) b (or_intror I) X). lia.
      + assert (Y := proj2 (H b (or_intror I)) a (or_introl eq_refl) X). lia.
    - apply IH. intros x Hx. destruct (H x (or_intror Hx)) as (A & B). split; [exact A|]. intros y Hy. apply B. right. exact Hy.
  Qed.

  Theorem alike_curve t b : (0 < t)%Z -> rep_curve eps e datums t (Z.of_nat vi) b = rep_curve eps e' datums' t (Z.of_nat vi') b.
  Proof.
    intros Ht.
    destruct (evaluator_shows eps unit ds Hin e He) as (L & S). destruct (evaluator_shows eps unit ds' Hin' e' He') as (L' & S').
    destruct (shown_report eps unit ds L full_view e Heps Hu Hin Hfew (single_distinct ds Hone) S datums sel Hsel v vi Hv) as (l & Hl & _ & _ & _ & Ec).
    destruct (shown_report eps unit ds' L' full_view e' Heps Hu Hin' Hfew' (single_distinct ds' Hone') S' datums' sel' Hsel' v' vi' Hv') as (l' & Hl' & _ & _ & _ & Ec').
    rewrite (Ec t b Ht), (Ec' t b Ht).
    assert (EG := alike_gts eps unit ds ds' sel sel' datums datums' e e' Hin Hin' Hsel Hsel' He He' v v' vi vi' Hv Hv' f Halike). rewrite EG.
    assert (R := canonical_rows eps unit ds sel v Hin Hone l Hl). assert (R' := canonical_rows eps unit ds' sel' v' Hin' Hone' l' Hl').
    assert (SC : forall y, In y (map (abs3 ds v) l) -> In (snd (fst y)) (label_scores sel ds v)).
    { intros y Hy. apply R in Hy. destruct Hy as (i & d & r & Hi & Hs & Hr & ->). cbn [fst snd]. apply (scores_In sel ds v d); [apply (nth_error_In _ _ Hi)|exact Hs|exact Hr]. }
    assert (E : map (abs3 ds' v') l' = map (move f) (map (abs3 ds v) l)).
    { apply by_score_eq.
      - apply (canonical_by_score eps unit ds' sel' v' Hin' Hone' alike_nodup l' Hl').
      - assert (X := canonical_by_score eps unit ds sel v Hin Hone Hnd l Hl). revert X SC. generalize (map (abs3 ds v) l). intros m X M.
        induction X as [|a m X IH F]; [constructor|]. cbn [map]. constructor; [apply IH; intros y Hy; apply M; right; exact Hy|].
        rewrite Forall_map. rewrite Forall_forall in F |- *. intros y Hy. specialize (F y Hy). unfold by_score, move in *. cbn [fst snd].
        apply (Hf (snd (fst y))); [apply M; right; exact Hy|apply M; left; reflexivity|exact F].
      - intros y. rewrite R'. rewrite in_map_iff. split.
        + intros (i & d' & r' & Hi & Hs & Hr & ->). destruct (alike_nth' i d' Hi) as (d & Hd & Es & T). rewrite Hs in Es. rewrite (T Es) in Hr.
          unfold rescored in Hr. cbn [snd] in Hr. apply in_map_iff in Hr. destruct Hr as (r & <- & Hr). exists (i, fst r, r_best eps (snd r)).
          split; [reflexivity|]. apply R. exists i, d, r. auto.
        + intros (z & <- & Hz). apply R in Hz. destruct Hz as (i & d & r & Hi & Hs & Hr & ->). destruct (alike_nth i d Hi) as (d' & Hd & Es & T).
          exists i, d', (f (fst r), snd r). split; [exact Hd|]. split; [congruence|]. split; [|reflexivity]. rewrite (T Hs). unfold rescored. cbn [snd].
          apply in_map_iff. exists r. auto. }
    rewrite (hits_abs eps unit ds sel v Hin t l []) by (intros x Hx; apply (can_in _ _ _ _ _ Hl); exact Hx).
    rewrite (hits_abs eps unit ds' sel' v' Hin' t l' []) by (intros x Hx; apply (can_in _ _ _ _ _ Hl'); exact Hx).
    rewrite E. cbn [map]. change (@nil tri) with (map (move f) []) at 2. rewrite hits_move; [reflexivity|]. intros y Hy. apply SC in Hy.
    apply eq_true_iff_eq. rewrite !Z.ltb_lt. apply (Hf _ Hy).
  Qed.
  Theorem alike_ap t : (0 < t)%Z ->
    rep_ap eps e datums t (Z.of_nat vi) = rep_ap eps e' datums' t (Z.of_nat vi') /\
    rep_pr_curve eps e datums t (Z.of_nat vi) = rep_pr_curve eps e' datums' t (Z.of_nat vi').
  Proof.
    intros Ht. split.
    - unfold rep_ap. apply average_precision_ext. intros b. apply alike_curve. exact Ht.
    - unfold rep_pr_curve. f_equal. apply run_max_ext. intros b. apply alike_curve. exact Ht.
  Qed.
End AlikeAp.
