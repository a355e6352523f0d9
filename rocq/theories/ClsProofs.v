(* Proofs about classification counts and confusion matrices. *)
From Verif Require Import Prelude CacheSpec Counting ClsModel ClsSpec ClsLabelProofs.
From Coq Require Import String QArith.
Local Open Scope nat_scope.
Local Open Scope list_scope.

(* ------------------------------------------------------------------ *)
(** * From tables to datums *)

Lemma dcount_filter {A K} (dec : forall x y : K, {x = y} + {x <> y}) (key : A -> K) P f l :
  dcount dec key P (filter f l) = dcount dec key (fun a => f a && P a) l.
Proof. unfold dcount, dkeys. rewrite filter_filter. reflexivity. Qed.

Lemma dcount_false {A K} (dec : forall x y : K, {x = y} + {x <> y}) (key : A -> K) P l :
  (forall a, In a l -> P a = false) -> dcount dec key P l = 0.
Proof. intros H. unfold dcount, dkeys. rewrite filter_none by exact H. reflexivity. Qed.

Lemma aligned_neq {A} (key : A -> Z) ts i j ti tj a b :
  aligned key ts -> nth_error ts i = Some ti -> nth_error ts j = Some tj -> i <> j ->
  In a ti -> In b tj -> key a <> key b.
Proof. intros H Hi Hj N Ha Hb E. apply N. eapply H; eauto. Qed.

Lemma list_sum_mapi_ext {A} (f : nat -> A -> nat) (g : A -> nat) l : forall i,
  (forall k a, nth_error l k = Some a -> f (i + k) a = g a) ->
  list_sum_nat (mapi_from f i l) = list_sum_nat (map g l).
Proof.
  induction l as [|x t IH]; intros i H; [reflexivity|].
  cbn [mapi_from map]. unfold list_sum_nat. cbn [fold_right].
  pose proof (H 0 x eq_refl) as H0. rewrite Nat.add_0_r in H0. rewrite H0.
  f_equal. apply (IH (S i)). intros k a Hk. rewrite <- (H (S k) a Hk). f_equal. lia.
Qed.

Section Input.
  Variable cs : list classification.
  Hypothesis Hacc : Forall accepted cs.
  Let L := labels_of cs.
  Let W := mapi (canon_rows L) cs.

  Lemma W_writes : ld_writes (fst (add_data loader_init cs)) = W.
  Proof. rewrite loaded by exact Hacc. reflexivity. Qed.

  Lemma W_nth d c : nth_error cs d = Some c -> nth_error W d = Some (canon_rows L d c).
  Proof. intros H. unfold W, mapi. rewrite mapi_from_nth, H. reflexivity. Qed.

  Lemma W_inv d rows : nth_error W d = Some rows -> exists c, nth_error cs d = Some c /\ rows = canon_rows L d c.
  Proof.
    unfold W, mapi. rewrite mapi_from_nth. destruct (nth_error cs d) as [c|]; simpl; [|discriminate].
    intros [= <-]. eauto.
  Qed.

  Lemma W_aligned : aligned r_datum W.
  Proof.
    intros i j ti tj a b Hi Hj Ha Hb E.
    apply W_inv in Hi. apply W_inv in Hj. destruct Hi as (c1 & _ & ->), Hj as (c2 & _ & ->).
    apply canon_In in Ha. apply canon_In in Hb. destruct Ha as (_ & Ha & _), Hb as (_ & Hb & _).
    rewrite Ha, Hb in E. lia.
  Qed.

  (* every stored row belongs to a datum of the input *)
  Lemma stored_row tables r : stored cs tables -> In r (List.concat tables) ->
    exists d c, nth_error cs d = Some c /\ In r (canon_rows L d c) /\ In c cs.
  Proof.
    intros [Hp _] Hr. rewrite W_writes in Hp. apply (Permutation_in _ Hp) in Hr.
    apply in_concat in Hr. destruct Hr as (rows & Hin & Hr). apply In_nth_error in Hin.
    destruct Hin as (d & Hd). apply W_inv in Hd. destruct Hd as (c & Hc & ->).
    exists d, c. repeat split; auto. eapply nth_error_In; eauto.
  Qed.

  Lemma stored_row_conv tables d c r : stored cs tables -> nth_error cs d = Some c ->
    In r (canon_rows L d c) -> In r (List.concat tables).
  Proof.
    intros [Hp _] Hc Hr. rewrite W_writes in Hp. apply (Permutation_in _ (Permutation_sym Hp)).
    apply in_concat. exists (canon_rows L d c). split; [|exact Hr]. eapply nth_error_In. apply W_nth. exact Hc.
  Qed.

  Lemma sum_countb tables datums sel P (v : classification -> nat) :
    stored cs tables -> selects cs tables datums sel ->
    (forall d c, nth_error cs d = Some c -> countb P (canon_rows L d c) = v c) ->
    list_sum_nat (map (fun t => countb P (filter datums t)) tables)
    = list_sum_nat (map (fun c => if sel c then v c else 0) cs).
  Proof.
    intros Hst Hsel Hv.
    rewrite (list_sum_nat_ext _ (countb (fun r => datums r && P r))) by (intros; apply countb_filter).
    rewrite <- countb_concat. rewrite (countb_perm _ _ _ (proj1 Hst)), W_writes, countb_concat.
    unfold W, mapi. rewrite map_mapi_from. apply list_sum_mapi_ext. intros d c Hc. cbn [Nat.add].
    rewrite <- (Hv d c Hc). destruct (sel c) eqn:E.
    - apply countb_ext. intros r Hr.
      rewrite (Hsel r d c); [rewrite E; reflexivity| |apply canon_In in Hr; tauto|exact Hc].
      eapply stored_row_conv; eauto.
    - apply countb_false. intros r Hr.
      rewrite (Hsel r d c); [rewrite E; reflexivity| |apply canon_In in Hr; tauto|exact Hc].
      eapply stored_row_conv; eauto.
  Qed.

  Lemma sum_dcount {K} (dec : forall x y : K, {x = y} + {x <> y}) (key : crow -> K)
      tables datums sel P (v : classification -> nat) :
    stored cs tables -> selects cs tables datums sel ->
    (forall a b, key a = key b -> r_datum a = r_datum b) ->
    (forall d c, nth_error cs d = Some c -> dcount dec key P (canon_rows L d c) = v c) ->
    list_sum_nat (map (fun t => dcount dec key P (filter datums t)) tables)
    = list_sum_nat (map (fun c => if sel c then v c else 0) cs).
  Proof.
    intros Hst Hsel Hk Hv.
    rewrite (list_sum_nat_ext _ (dcount dec key (fun r => datums r && P r))) by (intros; apply dcount_filter).
    rewrite <- dcount_concat.
    2: { intros i j ti tj a b Hi Hj N Ha Hb _ _ E. apply Hk in E.
         exact (aligned_neq _ _ _ _ _ _ _ _ (proj2 Hst) Hi Hj N Ha Hb E). }
    rewrite (dcount_perm _ _ _ _ _ (proj1 Hst)), W_writes.
    rewrite dcount_concat.
    2: { intros i j ti tj a b Hi Hj N Ha Hb _ _ E. apply Hk in E.
         exact (aligned_neq _ _ _ _ _ _ _ _ W_aligned Hi Hj N Ha Hb E). }
    unfold W, mapi. rewrite map_mapi_from. apply list_sum_mapi_ext. intros d c Hc. cbn [Nat.add].
    rewrite <- (Hv d c Hc). destruct (sel c) eqn:E.
    - apply dcount_ext. intros r Hr.
      rewrite (Hsel r d c); [rewrite E; reflexivity| |apply canon_In in Hr; tauto|exact Hc].
      eapply stored_row_conv; eauto.
    - apply dcount_false. intros r Hr.
      rewrite (Hsel r d c); [rewrite E; reflexivity| |apply canon_In in Hr; tauto|exact Hc].
      eapply stored_row_conv; eauto.
  Qed.
End Input.

Lemma list_sum_sel {A} (sel f : A -> bool) l :
  list_sum_nat (map (fun c => if sel c then (if f c then 1 else 0) else 0) l) = countb (fun c => sel c && f c) l.
Proof.
  rewrite <- list_sum_nat_if. apply list_sum_nat_ext. intros x _. destruct (sel x), (f x); reflexivity.
Qed.

(* ------------------------------------------------------------------ *)
(** * The result arrays as sums over tables *)

Definition total (tol : Z) (hm : bool) (thr : Z) (datums : crow -> bool) (tables : list (list crow)) (l : Z) : counts :=
  MkCounts
    (list_sum_nat (map (fun t => countb (fun r => m_tp tol hm thr r && (r_pd r =? l)%Z) (filter datums t)) tables))
    (list_sum_nat (map (fun t => countb (fun r => m_fp tol hm thr r && (r_pd r =? l)%Z) (filter datums t)) tables))
    (list_sum_nat (map (fun t => dcount zz_dec (fun r => (r_datum r, r_gt r))
        (fun r => m_fn tol hm thr r && (r_gt r =? l)%Z) (filter datums t)) tables))
    (list_sum_nat (map (fun t => dcount zz_dec (fun r => (r_datum r, r_pd r))
        (fun r => m_tn tol hm thr r && (r_pd r =? l)%Z) (filter datums t)) tables)).

Lemma map2_map {A B C D} (f : B -> C -> D) (g : A -> B) (h : A -> C) l :
  map2 f (map g l) (map h l) = map (fun x => f (g x) (h x)) l.
Proof. induction l as [|x t IH]; simpl; congruence. Qed.

Lemma fold_add_counts tol hm datums thrs n tables : forall g,
  fold_left (fun acc t => add_arrays acc (compute_counts tol hm thrs n (filter datums t))) tables
    (map (fun thr => map (fun l => g thr l) (seq 0 n)) thrs)
  = map (fun thr => map (fun l =>
      let T := total tol hm thr datums tables (Z.of_nat l) in
      counts_add (g thr l) T) (seq 0 n)) thrs.
Proof.
  induction tables as [|t ts IH]; intros g.
  - cbn [fold_left]. apply map_ext. intros thr. apply map_ext. intros l.
    unfold total. cbn. destruct (g thr l). unfold counts_add. cbn. f_equal; lia.
  - cbn [fold_left]. unfold add_arrays at 2. unfold compute_counts at 2. rewrite map2_map.
    transitivity (fold_left (fun acc t => add_arrays acc (compute_counts tol hm thrs n (filter datums t))) ts
      (map (fun thr => map (fun l => counts_add (g thr l) (counts_at tol hm thr (filter datums t) (Z.of_nat l))) (seq 0 n)) thrs)).
    { f_equal. apply map_ext. intros thr. apply map2_map. }
    rewrite IH. apply map_ext. intros thr. apply map_ext. intros l. cbv zeta.
    unfold counts_at, total. rewrite !dkeys_countb. cbn [map]. unfold counts_add. cbn [n_tp n_fp n_fn n_tn].
    cbn [snd]. unfold list_sum_nat. cbn [fold_right]. f_equal; lia.
Qed.

Lemma counts_zero_add c : counts_add counts_zero c = c.
Proof. destruct c; reflexivity. Qed.

Theorem evaluate_counts_total tol hm thrs n datums tables :
  evaluate_counts tol hm thrs n datums tables
  = map (fun thr => map (fun l => total tol hm thr datums tables (Z.of_nat l)) (seq 0 n)) thrs.
Proof.
  unfold evaluate_counts. rewrite (fold_add_counts tol hm datums thrs n tables (fun _ _ => counts_zero)).
  apply map_ext. intros thr. apply map_ext. intros l. cbv zeta. apply counts_zero_add.
Qed.

(* ------------------------------------------------------------------ *)
(** * Label comparison by np.isclose *)

Lemma isclose_small a b :
  (0 <= a < 100000)%Z -> (0 <= b < 100000)%Z -> isclose_label a b = (a =? b)%Z.
Proof. intros Ha Hb. unfold isclose_label. destruct (Z.eqb_spec a b); lia. Qed.

Section Counts.
  Variable cs : list classification.
  Hypothesis Hacc : Forall accepted cs.
  Hypothesis Hfew : few_labels cs.
  Variables tol thr : Z.
  Let L := labels_of cs.
  Let nonzero (s : Z) := (tol <? Z.abs s)%Z.

  Lemma acc_of d c : nth_error cs d = Some c -> accepted c.
  Proof. intros H. rewrite Forall_forall in Hacc. apply Hacc. eapply nth_error_In; eauto. Qed.

  Lemma row_match d c r : nth_error cs d = Some c -> In r (canon_rows L d c) ->
    m_match r = String.eqb (c_groundtruth c) (r_pd_label r)
    /\ In (r_pd_label r) L /\ In (c_groundtruth c) L.
  Proof.
    clear nonzero tol thr.
    intros Hc Hr. pose proof (nth_error_In _ _ Hc) as Hin.
    apply canon_In in Hr. destruct Hr as (_ & _ & _ & Hg & Hp & Hcand & _).
    pose proof (labels_of_gt cs c Hin) as Ig. pose proof (labels_of_pd cs c _ Hin Hcand) as Ip. cbn in Ip.
    split; [|split; assumption]. unfold m_match. rewrite Hg, Hp.
    pose proof (idx_range L _ Ig). pose proof (idx_range L _ Ip). unfold few_labels in Hfew. fold L in Hfew.
    rewrite isclose_small by lia. apply idx_eqb; assumption.
  Qed.

  Lemma row_pd_eqb d c r l : nth_error cs d = Some c -> In r (canon_rows L d c) -> In l L ->
    (r_pd r =? idx L l)%Z = String.eqb (r_pd_label r) l.
  Proof.
    clear nonzero tol thr.
    intros Hc Hr Hl. destruct (row_match d c r Hc Hr) as (_ & Ip & _).
    apply canon_In in Hr. destruct Hr as (_ & _ & _ & _ & -> & _). apply idx_eqb; assumption.
  Qed.
  Lemma row_gt_eqb d c r l : nth_error cs d = Some c -> In r (canon_rows L d c) -> In l L ->
    (r_gt r =? idx L l)%Z = String.eqb (c_groundtruth c) l.
  Proof.
    clear nonzero tol thr.
    intros Hc Hr Hl. destruct (row_match d c r Hc Hr) as (_ & _ & Ig).
    apply canon_In in Hr. destruct Hr as (_ & _ & _ & -> & _). apply idx_eqb; assumption.
  Qed.
  Lemma row_valid d c r : nth_error cs d = Some c -> In r (canon_rows L d c) ->
    (0 <=? r_pd r)%Z = true /\ (0 <=? r_gt r)%Z = true.
  Proof.
    clear nonzero tol thr.
    intros Hc Hr. destruct (row_match d c r Hc Hr) as (_ & Ip & Ig).
    apply canon_In in Hr. destruct Hr as (_ & _ & _ & -> & -> & _).
    pose proof (idx_range L _ Ig). pose proof (idx_range L _ Ip). split; lia.
  Qed.

  (* exactly one row can pass under hardmax *)
  Lemma countb_hardmax d c (Q : crow -> bool) :
    nth_error cs d = Some c ->
    countb (fun r => Q r && r_winner r) (canon_rows L d c)
    = match top c with
      | Some (l, s) =>
          (if existsb (fun r => r_winner r && Q r) (canon_rows L d c) then 1 else 0)
      | None => 0
      end.
  Proof.
    intros Hc. destruct (canon_split L d c (acc_of d c Hc)) as (pre & w & post & E & Ht & Hw & Hn & _).
    rewrite E, Ht, countb_app. rewrite existsb_app. cbn [existsb].
    assert (N1 : countb (fun r => Q r && r_winner r) pre = 0).
    { apply countb_false. intros r Hr. rewrite Hn by auto. apply andb_false_r. }
    assert (N2 : countb (fun r => Q r && r_winner r) post = 0).
    { apply countb_false. intros r Hr. rewrite Hn by auto. apply andb_false_r. }
    assert (X1 : existsb (fun r => r_winner r && Q r) pre = false).
    { apply not_true_is_false. intros H. apply existsb_exists in H. destruct H as (r & Hr & H).
      rewrite Hn in H by auto. discriminate. }
    assert (X2 : existsb (fun r => r_winner r && Q r) post = false).
    { apply not_true_is_false. intros H. apply existsb_exists in H. destruct H as (r & Hr & H).
      rewrite Hn in H by auto. discriminate. }
    rewrite X1, X2, N1. unfold countb in *. cbn [filter]. rewrite Hw. cbn. rewrite orb_false_r, andb_true_r.
    destruct (Q w); cbn; rewrite N2; reflexivity.
  Qed.

  (* the winning row *)
  Lemma winner_row d c r l s : nth_error cs d = Some c -> In r (canon_rows L d c) ->
    top c = Some (l, s) -> r_winner r = true -> r_pd_label r = l /\ r_score r = s.
  Proof.
    intros Hc Hr Ht Hw. destruct (canon_split L d c (acc_of d c Hc)) as (pre & w & post & E & Ht' & Hw' & Hn & _).
    rewrite E in Hr. apply in_app_iff in Hr. destruct Hr as [Hr|[<-|Hr]].
    - rewrite Hn in Hw by auto. discriminate.
    - rewrite Ht in Ht'. injection Ht' as -> ->. auto.
    - rewrite Hn in Hw by auto. discriminate.
  Qed.
  Lemma winner_exists d c l s : nth_error cs d = Some c -> top c = Some (l, s) ->
    exists r, In r (canon_rows L d c) /\ r_winner r = true /\ r_pd_label r = l /\ r_score r = s.
  Proof.
    intros Hc Ht. destruct (canon_split L d c (acc_of d c Hc)) as (pre & w & post & E & Ht' & Hw' & Hn & _).
    exists w. rewrite E. split; [apply in_app_iff; right; left; reflexivity|].
    rewrite Ht in Ht'. injection Ht' as -> ->. auto.
  Qed.
  Lemma top_some d c : nth_error cs d = Some c -> exists l s, top c = Some (l, s).
  Proof.
    intros Hc. destruct (canon_split L d c (acc_of d c Hc)) as (pre & w & post & E & Ht' & _). eauto.
  Qed.

  Lemma if_bool_eq (a b : bool) : (a = true <-> b = true) -> (if a then 1 else 0) = (if b then 1 else 0).
  Proof. destruct a, b; intros [H1 H2]; auto; [discriminate (H1 eq_refl)|discriminate (H2 eq_refl)]. Qed.

  Lemma decides_some c l : decides nonzero thr c = Some l <->
    exists s, top c = Some (l, s) /\ (thr <=? s)%Z = true /\ nonzero s = true.
  Proof.
    unfold decides. destruct (top c) as [[l' s]|]; [|split; [discriminate|intros (s & H & _); discriminate]].
    destruct ((thr <=? s)%Z && nonzero s) eqn:E.
    - apply andb_true_iff in E. split; [intros [= ->]; exists s; tauto|]. intros (s' & [= -> ->] & _). reflexivity.
    - split; [discriminate|]. intros (s' & [= -> ->] & H). rewrite (proj1 H), (proj2 H) in E. discriminate.
  Qed.

  Lemma opt_is_true o l : opt_is o l = true <-> o = Some l.
  Proof. unfold opt_is. destruct o; [rewrite String.eqb_eq|]; split; congruence. Qed.

  (* a row passes under hardmax iff it is the winner and the datum is decided *)
  Lemma hm_score d c r : nth_error cs d = Some c -> In r (canon_rows L d c) ->
    m_score tol true thr r = true <-> r_winner r = true /\ decides nonzero thr c = Some (r_pd_label r).
  Proof.
    intros Hc Hr. unfold m_score. rewrite !andb_true_iff. destruct (top_some d c Hc) as (l & s & Ht). split.
    - intros ((H1 & H2) & Hw). split; [exact Hw|]. destruct (winner_row d c r l s Hc Hr Ht Hw) as [Hl Hs].
      apply decides_some. exists s. subst. auto.
    - intros (Hw & Hd). destruct (winner_row d c r l s Hc Hr Ht Hw) as [Hl Hs].
      apply decides_some in Hd. destruct Hd as (s' & Ht2 & H1 & H2). rewrite Ht in Ht2. injection Ht2 as _ ->.
      subst. auto.
  Qed.

  Lemma decides_row d c l : nth_error cs d = Some c -> decides nonzero thr c = Some l ->
    exists r, In r (canon_rows L d c) /\ r_winner r = true /\ r_pd_label r = l /\ m_score tol true thr r = true.
  Proof.
    intros Hc Hd. pose proof Hd as Hd'. apply decides_some in Hd'. destruct Hd' as (s & Ht & H1 & H2).
    destruct (winner_exists d c l s Hc Ht) as (r & Hr & Hw & Hl & Hs). exists r. repeat split; auto.
    apply (hm_score d c r Hc Hr). subst. auto.
  Qed.

  Lemma existsb_iff {A} (f : A -> bool) l P :
    (existsb f l = true <-> P) <-> ((exists x, In x l /\ f x = true) <-> P).
  Proof. rewrite existsb_exists. reflexivity. Qed.

  Lemma datum_tp d c l : nth_error cs d = Some c -> In l L ->
    countb (fun r => m_tp tol true thr r && (r_pd r =? idx L l)%Z) (canon_rows L d c)
    = if outcome_tp (decides nonzero thr) l c then 1 else 0.
  Proof.
    intros Hc Hl.
    rewrite (countb_ext _ (fun r => (m_match r && (tol <? Z.abs (r_score r))%Z && (thr <=? r_score r)%Z && (r_pd r =? idx L l)%Z) && r_winner r)).
    2: { intros r _. unfold m_tp, m_score. cbv iota.
         destruct (m_match r), (tol <? Z.abs (r_score r))%Z, (thr <=? r_score r)%Z, (r_pd r =? idx L l)%Z, (r_winner r); reflexivity. }
    rewrite (countb_hardmax d c _ Hc). destruct (top_some d c Hc) as (tl & ts & Ht). rewrite Ht.
    apply if_bool_eq. apply existsb_iff. unfold outcome_tp. rewrite andb_true_iff, opt_is_true, String.eqb_eq. split.
    - intros (r & Hr & H). rewrite !andb_true_iff in H. destruct H as (Hw & (((Hm & H1) & H2) & Hp)).
      destruct (row_match d c r Hc Hr) as (Em & _). rewrite Em, String.eqb_eq in Hm.
      rewrite (row_pd_eqb d c r l Hc Hr Hl), String.eqb_eq in Hp.
      split; [congruence|]. rewrite <- Hp. apply (hm_score d c r Hc Hr). unfold m_score. rewrite H1, H2, Hw. reflexivity.
    - intros (Hg & Hd). destruct (decides_row d c l Hc Hd) as (r & Hr & Hw & Hpl & Hs).
      exists r. split; [exact Hr|]. destruct (row_match d c r Hc Hr) as (Em & _).
      rewrite Em, (row_pd_eqb d c r l Hc Hr Hl), Hpl, Hg, !String.eqb_refl, Hw.
      unfold m_score in Hs. rewrite !andb_true_iff in Hs. destruct Hs as ((-> & ->) & _). reflexivity.
  Qed.

  Lemma datum_fp d c l : nth_error cs d = Some c -> In l L ->
    countb (fun r => m_fp tol true thr r && (r_pd r =? idx L l)%Z) (canon_rows L d c)
    = if outcome_fp (decides nonzero thr) l c then 1 else 0.
  Proof.
    intros Hc Hl.
    rewrite (countb_ext _ (fun r => (negb (m_match r) && (tol <? Z.abs (r_score r))%Z && (thr <=? r_score r)%Z && (r_pd r =? idx L l)%Z) && r_winner r)).
    2: { intros r Hr. unfold m_fp, m_fp_raw, m_score. cbv iota. rewrite (proj1 (row_valid d c r Hc Hr)).
         destruct (m_match r), (tol <? Z.abs (r_score r))%Z, (thr <=? r_score r)%Z, (r_pd r =? idx L l)%Z, (r_winner r); reflexivity. }
    rewrite (countb_hardmax d c _ Hc). destruct (top_some d c Hc) as (tl & ts & Ht). rewrite Ht.
    apply if_bool_eq. apply existsb_iff. unfold outcome_fp. rewrite andb_true_iff, opt_is_true, negb_true_iff, String.eqb_neq. split.
    - intros (r & Hr & H). rewrite !andb_true_iff, negb_true_iff in H. destruct H as (Hw & (((Hm & H1) & H2) & Hp)).
      destruct (row_match d c r Hc Hr) as (Em & _). rewrite Em, String.eqb_neq in Hm.
      rewrite (row_pd_eqb d c r l Hc Hr Hl), String.eqb_eq in Hp.
      split; [congruence|]. rewrite <- Hp. apply (hm_score d c r Hc Hr). unfold m_score. rewrite H1, H2, Hw. reflexivity.
    - intros (Hg & Hd). destruct (decides_row d c l Hc Hd) as (r & Hr & Hw & Hpl & Hs).
      exists r. split; [exact Hr|]. destruct (row_match d c r Hc Hr) as (Em & _).
      rewrite Em, (row_pd_eqb d c r l Hc Hr Hl), Hpl, !String.eqb_refl, Hw.
      rewrite (proj2 (String.eqb_neq _ _) Hg).
      unfold m_score in Hs. rewrite !andb_true_iff in Hs. destruct Hs as ((-> & ->) & _). reflexivity.
  Qed.

  (* rows of one datum carry different labels *)
  Lemma rows_label_inj d c r r' : distinct_candidates c -> accepted c ->
    In r (canon_rows L d c) -> In r' (canon_rows L d c) -> r_pd_label r = r_pd_label r' -> r = r'.
  Proof.
    intros Hn [_ Hlen] Hr Hr' E. unfold canon_rows, mapi in *.
    apply mapi_from_In in Hr. apply mapi_from_In in Hr'.
    destruct Hr as (k & [a s] & Hk & ->), Hr' as (k' & [a' s'] & Hk' & ->). cbn in E. subst a'.
    assert (k = k').
    { unfold distinct_candidates in Hn. rewrite <- (combine_fst (c_predictions c) (c_scores c) Hlen) in Hn.
      rewrite NoDup_nth_error in Hn. apply Hn.
      - rewrite map_length. apply nth_error_Some. fold (candidates c). congruence.
      - rewrite !nth_error_map. fold (candidates c). rewrite Hk, Hk'. reflexivity. }
    subst k'. rewrite Hk in Hk'. injection Hk' as ->. reflexivity.
  Qed.

  Lemma covered_row d c : accepted c -> covered c ->
    exists r, In r (canon_rows L d c) /\ r_pd_label r = c_groundtruth c.
  Proof.
    intros [_ Hlen] Hcov. unfold covered in Hcov.
    rewrite <- (combine_fst (c_predictions c) (c_scores c) Hlen) in Hcov.
    apply in_map_iff in Hcov. destruct Hcov as ([a s] & E & Hin). cbn in E. subst a.
    destruct (canon_In_conv L d c _ _ Hin) as (r & H1 & H2 & _). eauto.
  Qed.

  Lemma dkey_gt_const d c (P : crow -> bool) l : nth_error cs d = Some c ->
    dcount zz_dec (fun r => (r_datum r, r_gt r)) (fun r => P r && (r_gt r =? l)%Z) (canon_rows L d c)
    = if existsb (fun r => P r && (r_gt r =? l)%Z) (canon_rows L d c) then 1 else 0.
  Proof.
    clear nonzero tol thr.
    intros Hc. apply (dcount_one _ _ _ _ (Z.of_nat d, l)). intros r Hr H.
    apply andb_true_iff in H. apply canon_In in Hr. destruct Hr as (_ & -> & _). f_equal. lia.
  Qed.
  Lemma dkey_pd_const d c (P : crow -> bool) l : nth_error cs d = Some c ->
    dcount zz_dec (fun r => (r_datum r, r_pd r)) (fun r => P r && (r_pd r =? l)%Z) (canon_rows L d c)
    = if existsb (fun r => P r && (r_pd r =? l)%Z) (canon_rows L d c) then 1 else 0.
  Proof.
    clear nonzero tol thr.
    intros Hc. apply (dcount_one _ _ _ _ (Z.of_nat d, l)). intros r Hr H.
    apply andb_true_iff in H. apply canon_In in Hr. destruct Hr as (_ & -> & _). f_equal. lia.
  Qed.

  Lemma datum_fn d c l : nth_error cs d = Some c -> In l L -> distinct_candidates c ->
    dcount zz_dec (fun r => (r_datum r, r_gt r)) (fun r => m_fn tol true thr r && (r_gt r =? idx L l)%Z) (canon_rows L d c)
    = if outcome_fn (decides nonzero thr) l c && noticed (decides nonzero thr) c then 1 else 0.
  Proof.
    intros Hc Hl Hdist. rewrite dkey_gt_const by exact Hc.
    apply if_bool_eq. apply existsb_iff. unfold outcome_fn, noticed.
    rewrite !andb_true_iff, negb_true_iff, String.eqb_eq, orb_true_iff. split.
    - intros (r & Hr & H). apply andb_true_iff in H. destruct H as (Hf & Hg).
      rewrite (row_gt_eqb d c r l Hc Hr Hl), String.eqb_eq in Hg.
      destruct (row_match d c r Hc Hr) as (Em & _).
      unfold m_fn, m_fp_raw in Hf. rewrite andb_true_iff, orb_true_iff, !andb_true_iff, !negb_true_iff in Hf.
      split; [split; [exact Hg|]|].
      + apply not_true_iff_false. rewrite opt_is_true. intros Hd. rewrite <- Hg in Hd.
        destruct (decides_row d c _ Hc Hd) as (w & Hw & Hww & Hwl & Hws).
        destruct Hf as ([(Hm & Hs)|(Hm & Hs)] & _).
        * rewrite Em, String.eqb_eq in Hm.
          assert (r = w) by (apply (rows_label_inj d c); auto; [eapply acc_of; eauto|congruence]). subst w. congruence.
        * rewrite Em, String.eqb_neq in Hm. apply (hm_score d c r Hc Hr) in Hs. destruct Hs as (_ & Hs). congruence.
      + destruct Hf as ([(Hm & Hs)|(Hm & Hs)] & _).
        * left. rewrite Em, String.eqb_eq in Hm. apply smem_In. rewrite Hm.
          apply canon_In in Hr. destruct Hr as (_ & _ & _ & _ & _ & Hin & _).
          unfold candidates in Hin. apply in_combine_l in Hin. exact Hin.
        * right. apply (hm_score d c r Hc Hr) in Hs. destruct Hs as (_ & ->). reflexivity.
    - intros ((Hg & Hd) & Hn). apply not_true_iff_false in Hd. rewrite opt_is_true in Hd.
      destruct Hn as [Hcov|Hdec].
      + apply smem_In in Hcov. destruct (covered_row d c (acc_of d c Hc) Hcov) as (r & Hr & Hrl).
        exists r. split; [exact Hr|]. rewrite (row_gt_eqb d c r l Hc Hr Hl), Hg, String.eqb_refl, andb_true_r.
        unfold m_fn. rewrite (proj2 (row_valid d c r Hc Hr)), andb_true_r.
        destruct (row_match d c r Hc Hr) as (Em & _). rewrite Em, Hrl, String.eqb_refl. cbn [andb].
        destruct (m_score tol true thr r) eqn:Es; [|reflexivity].
        apply (hm_score d c r Hc Hr) in Es. exfalso. apply Hd. destruct Es as (_ & ->). congruence.
      + destruct (decides nonzero thr c) as [x|] eqn:Ed; [|discriminate].
        destruct (decides_row d c x Hc Ed) as (r & Hr & Hw & Hrl & Hs).
        exists r. split; [exact Hr|]. rewrite (row_gt_eqb d c r l Hc Hr Hl), Hg, String.eqb_refl, andb_true_r.
        unfold m_fn, m_fp_raw. rewrite (proj2 (row_valid d c r Hc Hr)), andb_true_r, Hs.
        destruct (row_match d c r Hc Hr) as (Em & _). rewrite Em, Hrl, Hg.
        destruct (String.eqb_spec l x) as [<-|N]; [exfalso; apply Hd; reflexivity|reflexivity].
  Qed.

  Lemma datum_tn d c l : nth_error cs d = Some c -> In l L -> distinct_candidates c ->
    dcount zz_dec (fun r => (r_datum r, r_pd r)) (fun r => m_tn tol true thr r && (r_pd r =? idx L l)%Z) (canon_rows L d c)
    = if smem l (c_predictions c) && outcome_tn (decides nonzero thr) l c then 1 else 0.
  Proof.
    intros Hc Hl Hdist. rewrite dkey_pd_const by exact Hc.
    apply if_bool_eq. apply existsb_iff. unfold outcome_tn.
    rewrite !andb_true_iff, !negb_true_iff, smem_In, String.eqb_neq. split.
    - intros (r & Hr & H). apply andb_true_iff in H. destruct H as (Hf & Hg).
      rewrite (row_pd_eqb d c r l Hc Hr Hl), String.eqb_eq in Hg.
      unfold m_tn in Hf. rewrite andb_true_iff, !negb_true_iff in Hf. destruct Hf as (Hm & Hs).
      destruct (row_match d c r Hc Hr) as (Em & _). rewrite Em, String.eqb_neq in Hm.
      split; [|split; [congruence|]].
      + apply canon_In in Hr. destruct Hr as (_ & _ & _ & _ & _ & Hin & _). rewrite Hg in Hin.
        unfold candidates in Hin. apply in_combine_l in Hin. exact Hin.
      + apply not_true_iff_false. rewrite opt_is_true. intros Hd.
        destruct (decides_row d c _ Hc Hd) as (w & Hw & Hww & Hwl & Hws).
        assert (r = w) by (apply (rows_label_inj d c); auto; [eapply acc_of; eauto|congruence]). subst w. congruence.
    - intros (Hin & Hg & Hd). apply not_true_iff_false in Hd. rewrite opt_is_true in Hd.
      pose proof (acc_of d c Hc) as [_ Hlen].
      rewrite <- (combine_fst (c_predictions c) (c_scores c) Hlen) in Hin.
      apply in_map_iff in Hin. destruct Hin as ([a s] & E & Hin). cbn in E. subst a.
      destruct (canon_In_conv L d c _ _ Hin) as (r & Hr & Hrl & Hrs).
      exists r. split; [exact Hr|]. rewrite (row_pd_eqb d c r l Hc Hr Hl), Hrl, String.eqb_refl, andb_true_r.
      unfold m_tn. destruct (row_match d c r Hc Hr) as (Em & _). rewrite Em, Hrl.
      rewrite (proj2 (String.eqb_neq _ _) Hg). cbn [negb andb].
      destruct (m_score tol true thr r) eqn:Es; [|reflexivity].
      apply (hm_score d c r Hc Hr) in Es. exfalso. apply Hd. destruct Es as (_ & ->). congruence.
  Qed.

  Theorem counts_hardmax tables datums sel l :
    Forall distinct_candidates cs ->
    stored cs tables -> selects cs tables datums sel -> In l L ->
    total tol true thr datums tables (idx L l)
    = MkCounts (countb (fun c => sel c && outcome_tp (decides nonzero thr) l c) cs)
               (countb (fun c => sel c && outcome_fp (decides nonzero thr) l c) cs)
               (countb (fun c => sel c && (outcome_fn (decides nonzero thr) l c && noticed (decides nonzero thr) c)) cs)
               (countb (fun c => sel c && (smem l (c_predictions c) && outcome_tn (decides nonzero thr) l c)) cs).
  Proof.
    intros Hd Hst Hsel Hl. unfold total. rewrite Forall_forall in Hd. f_equal.
    - rewrite (sum_countb cs Hacc tables datums sel _ (fun c => if outcome_tp (decides nonzero thr) l c then 1 else 0) Hst Hsel).
      + apply list_sum_sel.
      + intros d c Hc. apply datum_tp; auto.
    - rewrite (sum_countb cs Hacc tables datums sel _ (fun c => if outcome_fp (decides nonzero thr) l c then 1 else 0) Hst Hsel).
      + apply list_sum_sel.
      + intros d c Hc. apply datum_fp; auto.
    - rewrite (sum_dcount cs Hacc zz_dec _ tables datums sel _ (fun c => if outcome_fn (decides nonzero thr) l c && noticed (decides nonzero thr) c then 1 else 0) Hst Hsel).
      + apply list_sum_sel.
      + intros a b E. congruence.
      + intros d c Hc. pose proof (nth_error_In _ _ Hc). apply datum_fn; auto.
    - rewrite (sum_dcount cs Hacc zz_dec _ tables datums sel _
          (fun c => if smem l (c_predictions c) && outcome_tn (decides nonzero thr) l c then 1 else 0) Hst Hsel).
      + apply list_sum_sel.
      + intros a b E. congruence.
      + intros d c Hc. pose proof (nth_error_In _ _ Hc). apply datum_tn; auto.
  Qed.
End Counts.
