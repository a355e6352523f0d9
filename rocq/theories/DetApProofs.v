(* Precision-recall curve and average precision (C31, C32). *)
From Verif Require Import Prelude Counting CacheModel CacheSpec SortProofs ClsModel ClsProofs DetModel DetSpec DetRankProofs DetCountProofs.
From Coq Require Import Lia String QArith Qminmax Lqa.
Local Open Scope nat_scope.
Local Open Scope list_scope.

(* ------------------------------------------------------------------ *)
(** * Bounds of maxima *)

Lemma qmax_le a b x : (Qmax a b <= x <-> a <= x /\ b <= x)%Q.
Proof. split; [apply Q.max_lub_iff|apply Q.max_lub_iff]. Qed.

Lemma qmaxl_le l x : (qmaxl l <= x)%Q <-> (0 <= x)%Q /\ forall y, In y l -> (y <= x)%Q.
Proof.
  induction l as [|a t IH]; simpl; [split; [intros H; split; [exact H|intros y []]|tauto]|].
  rewrite qmax_le, IH. split.
  - intros (H1 & H2 & H3). split; [exact H2|]. intros y [<-|Hy]; auto.
  - intros (H1 & H2). repeat split; auto.
Qed.

Lemma qmaxfold_le {A} (f : A -> Q) l m x :
  (fold_left (fun m p => Qmax m (f p)) l m <= x)%Q <-> (m <= x)%Q /\ forall p, In p l -> (f p <= x)%Q.
Proof.
  revert m. induction l as [|a t IH]; intros m; simpl; [split; [intros H; split; [exact H|intros y []]|tauto]|].
  rewrite IH, qmax_le. split.
  - intros ((H1 & H2) & H3). split; [exact H1|]. intros y [<-|Hy]; auto.
  - intros (H1 & H2). repeat split; auto.
Qed.

Lemma same_upper_bounds a b : (forall x, (a <= x)%Q <-> (b <= x)%Q) -> (a == b)%Q.
Proof. intros H. apply Qle_antisym; apply H; apply Qle_refl. Qed.

(* ------------------------------------------------------------------ *)
(** * The running counts *)

Definition run0 : runs := fun _ => (0, 0)%nat.

Section RunningP.
  Variables (eps t : Z).
  Local Notation run1 := (running eps t).

  Lemma running_app r1 : forall run r2,
    run1 run (r1 ++ r2) =
    (fst (run1 run r1) ++ fst (run1 (snd (run1 run r1)) r2), snd (run1 (snd (run1 run r1)) r2)).
  Proof.
    induction r1 as [|r u IH]; intros run r2; cbn [running app fst snd].
    - destruct (run1 run r2); reflexivity.
    - destruct (run (d_pl r)) as [total tp]. rewrite IH.
      destruct (run1 (upd_run run (d_pl r) (S total, if tp_outer eps t r then S tp else tp)) u) as [pts run'].
      cbn [fst snd]. reflexivity.
  Qed.

  Lemma running_rows rows : forall run, map (fun p => fst (fst p)) (fst (run1 run rows)) = rows.
  Proof.
    induction rows as [|r u IH]; intros run; cbn [running]; [reflexivity|].
    destruct (run (d_pl r)) as [total tp].
    specialize (IH (upd_run run (d_pl r) (S total, if tp_outer eps t r then S tp else tp))).
    destruct (run1 _ u) as [pts run']. cbn [fst map] in *. f_equal. exact IH.
  Qed.

  Fixpoint pr_list (n tp : nat) (hits : list bool) : list (nat * nat) :=
    match hits with
    | [] => []
    | h :: u => (S n, if h then S tp else 0) :: pr_list (S n) (if h then S tp else tp) u
    end.

  Lemma running_label l rows : forall run,
    map (fun p => (snd (fst p), snd p)) (filter (fun p => (d_pl (fst (fst p)) =? l)%Z) (fst (run1 run rows)))
    = pr_list (fst (run l)) (snd (run l)) (map (tp_outer eps t) (filter (fun r => (d_pl r =? l)%Z) rows)).
  Proof.
    induction rows as [|r u IH]; intros run; cbn [running]; [reflexivity|].
    destruct (run (d_pl r)) as [total tp] eqn:Er.
    specialize (IH (upd_run run (d_pl r) (S total, if tp_outer eps t r then S tp else tp))).
    destruct (run1 _ u) as [pts run']. cbn [fst filter] in *.
    destruct (d_pl r =? l)%Z eqn:El.
    - cbn [map pr_list fst snd]. rewrite IH. apply Z.eqb_eq in El. rewrite El in *.
      unfold upd_run. rewrite Z.eqb_refl, Er. reflexivity.
    - rewrite IH. unfold upd_run. replace (l =? d_pl r)%Z with false by lia. reflexivity.
  Qed.

  Lemma pr_list_nth hits : forall n tp i,
    nth_error (pr_list n tp hits) i =
    match nth_error hits i with
    | None => None
    | Some h => Some (n + S i, if h then tp + trues (firstn (S i) hits) else 0)
    end.
  Proof.
    induction hits as [|h u IH]; intros n tp [|i]; cbn [pr_list nth_error]; try reflexivity.
    - f_equal. f_equal; [lia|]. destruct h; [|reflexivity]. unfold trues, countb. cbn. lia.
    - rewrite IH. destruct (nth_error u i) as [h'|]; [|reflexivity]. f_equal. f_equal; [lia|].
      destruct h'; [|reflexivity]. change (firstn (S (S i)) (h :: u)) with (h :: firstn (S i) u).
      unfold trues, countb. cbn [filter]. destruct h; cbn [List.length]; lia.
  Qed.
End RunningP.

(* ------------------------------------------------------------------ *)
(** * Chunk independence of the curve *)

Lemma upd_curve_app n p1 p2 c l b :
  (forall x y, In x p1 -> In y p2 -> (d_score (fst (fst y)) <= d_score (fst (fst x)))%Z) ->
  upd_curve n (p1 ++ p2) c l b = upd_curve n p2 (upd_curve n p1 c) l b.
Proof.
  intros H. unfold upd_curve. rewrite filter_app, fold_left_app. cbn [fst snd]. f_equal.
  destruct (filter (pt_in n l b) p1) as [|x u] eqn:E1; [reflexivity|].
  cbn [app]. destruct (filter (pt_in n l b) p2) as [|y v] eqn:E2; [reflexivity|].
  assert (Hx : In x p1) by (apply (proj1 (proj1 (filter_In (pt_in n l b) x p1) ltac:(rewrite E1; left; reflexivity)))).
  assert (Hy : In y p2) by (apply (proj1 (proj1 (filter_In (pt_in n l b) y p2) ltac:(rewrite E2; left; reflexivity)))).
  specialize (H x y Hx Hy). lia.
Qed.

Definition by_score (a b : drow) : Prop := (d_score b <= d_score a)%Z.

Lemma eval_curve_concat eps t n datums tables l b :
  StronglySorted by_score (filter datums (List.concat tables)) ->
  eval_curve eps t n datums tables l b
  = upd_curve n (fst (running eps t run0 (filter datums (List.concat tables)))) curve0 l b.
Proof.
  unfold eval_curve. intros Hs.
  assert (G : forall tbs st, StronglySorted by_score (filter datums (List.concat tbs)) ->
    fst (fold_left (fun st tb => eval_step eps t n st (filter datums tb)) tbs st) l b
    = upd_curve n (fst (running eps t (snd st) (filter datums (List.concat tbs)))) (fst st) l b).
  { induction tbs as [|tb u IH]; intros st Hst.
    - cbn [fold_left List.concat filter running fst]. unfold upd_curve. cbn [filter fold_left]. destruct (fst st l b); reflexivity.
    - cbn [fold_left]. cbn [List.concat] in Hst |- *. rewrite filter_app in *.
      apply StronglySorted_app in Hst. destruct Hst as (H1 & H2 & H3).
      rewrite IH by exact H2. unfold eval_step. rewrite running_app.
      destruct (running eps t (snd st) (filter datums tb)) as [p1 run1] eqn:E1. cbn [fst snd].
      symmetry. apply upd_curve_app. intros x y Hx Hy. apply H3.
      + rewrite <- (running_rows eps t (filter datums tb) (snd st)), E1. cbn [fst].
        apply (in_map (fun p => fst (fst p))) in Hx. exact Hx.
      + rewrite <- (running_rows eps t (filter datums (List.concat u)) run1).
        apply (in_map (fun p => fst (fst p))) in Hy. exact Hy. }
  rewrite G by exact Hs. reflexivity.
Qed.

Lemma sorted_by_score R : StronglySorted (leP det_leb) R -> StronglySorted by_score R.
Proof.
  intros H. induction H as [|a l H IH Hf]; constructor; [exact IH|].
  rewrite Forall_forall in *. intros x Hx. specialize (Hf x Hx). apply det_leb_spec in Hf. unfold by_score. lia.
Qed.

(* ------------------------------------------------------------------ *)
(** * Average precision *)

Lemma ap_loop_sum c f : forall bins pre m s,
  (forall x, (m <= x)%Q <-> (0 <= x)%Q /\ forall b, In b pre -> (c b <= x)%Q) ->
  (forall l1 b l2, bins = l1 ++ b :: l2 -> forall x,
     (f b <= x)%Q <-> (0 <= x)%Q /\ forall b', In b' (pre ++ l1 ++ [b]) -> (c b' <= x)%Q) ->
  (ap_loop c bins m s == s + qsum (map f bins))%Q.
Proof.
  induction bins as [|b u IH]; intros pre m s Hm Hf; cbn [ap_loop map qsum fold_right].
  - ring.
  - assert (E : (Qmax (c b) m == f b)%Q).
    { apply same_upper_bounds. intros x. rewrite (Hf [] b u eq_refl x). rewrite qmax_le, Hm. simpl.
      split.
      - intros (H1 & H2 & H3). split; [exact H2|]. intros b' Hb'. apply in_app_iff in Hb'. destruct Hb' as [Hb'|[<-|[]]]; auto.
      - intros (H1 & H2). split; [apply H2; apply in_app_iff; right; left; reflexivity|].
        split; [exact H1|]. intros b' Hb'. apply H2. apply in_app_iff. auto. }
    rewrite (IH (pre ++ [b])).
    + fold (qsum (map f u)). rewrite E. ring.
    + intros x. rewrite qmax_le, Hm. split.
      * intros (H1 & H2 & H3). split; [exact H2|]. intros b' Hb'. apply in_app_iff in Hb'. destruct Hb' as [Hb'|[<-|[]]]; auto.
      * intros (H1 & H2). split; [apply H2; apply in_app_iff; right; left; reflexivity|].
        split; [exact H1|]. intros b' Hb'. apply H2. apply in_app_iff. auto.
    + intros l1 b' l2 Eu x. rewrite (Hf (b :: l1) b' l2); [|rewrite Eu; reflexivity].
      rewrite <- !app_assoc. reflexivity.
Qed.

Lemma rev_seq_split n : forall l1 b l2 b', rev (seq 0 n) = l1 ++ b :: l2 ->
  In b' (l1 ++ [b]) <-> b <= b' < n.
Proof.
  induction n as [|n IH]; intros l1 b l2 b' E; [destruct l1; discriminate|].
  rewrite seq_S, rev_app_distr in E. simpl in E. destruct l1 as [|a l1]; simpl in E; injection E as <- H1.
  - simpl. split; [intros [<-|[]]; lia|intros H; left; lia].
  - specialize (IH l1 b l2 b' H1). simpl. rewrite IH.
    assert (Hb : b < n).
    { assert (In b (rev (seq 0 n))) by (rewrite H1; apply in_elt). apply in_rev in H. apply in_seq in H. lia. }
    lia.
Qed.

Lemma qsum_perm l1 l2 : Permutation l1 l2 -> (qsum l1 == qsum l2)%Q.
Proof.
  induction 1 as [|x l l' _ IH|x y l|l l' l'' _ IH1 _ IH2]; unfold qsum in *; simpl.
  - reflexivity.
  - rewrite IH. reflexivity.
  - ring.
  - rewrite IH1. exact IH2.
Qed.

Lemma average_precision_max c f :
  (forall k, k <= 100 -> forall x, (f k <= x)%Q <-> (0 <= x)%Q /\ forall b, k <= b <= 100 -> (c b <= x)%Q) ->
  (average_precision c == qsum (map f (seq 0 101)) / 101)%Q.
Proof.
  intros Hf. unfold average_precision. apply Qmult_comp; [|reflexivity].
  rewrite (ap_loop_sum c f (rev (seq 0 101)) []).
  - rewrite (qsum_perm (map f (rev (seq 0 101))) (map f (seq 0 101))); [ring|].
    apply Permutation_map. apply Permutation_sym, Permutation_rev.
  - intros x. split; [intros H; split; [exact H|intros b []]|tauto].
  - intros l1 b l2 E x. cbn [app]. rewrite Hf.
    + split; intros (H1 & H2); (split; [exact H1|]); intros b' Hb'; apply H2.
      * apply (rev_seq_split 101 l1 b l2 b' E) in Hb'. lia.
      * apply (rev_seq_split 101 l1 b l2 b' E). lia.
    + assert (In b (rev (seq 0 101))) by (rewrite E; apply in_elt). apply in_rev in H. apply in_seq in H. lia.
Qed.

(* the last hit of a prefix *)
Lemma last_hit hits : forall i, 0 < trues (firstn i hits) ->
  exists j, S j <= i /\ nth_error hits j = Some true /\ trues (firstn (S j) hits) = trues (firstn i hits).
Proof.
  induction i as [|i IH]; intros H; [simpl in H; inversion H|].
  destruct (nth_error hits i) as [h|] eqn:E.
  - assert (Ef : firstn (S i) hits = firstn i hits ++ [h]).
    { clear -E. revert i E. induction hits as [|a u IH]; intros [|i] E; try discriminate.
      - inversion E; reflexivity.
      - change (firstn (S (S i)) (a :: u)) with (a :: firstn (S i) u). rewrite (IH i E). reflexivity. }
    destruct h.
    + exists i. auto.
    + assert (Et : trues (firstn (S i) hits) = trues (firstn i hits)).
      { rewrite Ef. unfold trues. rewrite countb_app. simpl. unfold countb at 2. simpl. lia. }
      rewrite Et in *. destruct (IH H) as (j & H1 & H2 & H3). exists j. repeat split; auto.
  - apply nth_error_None in E. assert (Ef : firstn (S i) hits = firstn i hits) by (rewrite !firstn_all2 by lia; reflexivity).
    rewrite Ef in *. destruct (IH H) as (j & H1 & H2 & H3). exists j. repeat split; auto.
Qed.

Lemma trues_firstn_le hits i : trues (firstn i hits) <= trues hits.
Proof. rewrite <- (firstn_skipn i hits) at 2. unfold trues. rewrite countb_app. lia. Qed.

Lemma trues_le_length hits : trues hits <= List.length hits.
Proof. unfold trues. apply countb_le_length. Qed.

Lemma qnat_div_antitone a i j : 0 < i -> i <= j -> (qnat a / qnat j <= qnat a / qnat i)%Q.
Proof.
  intros H1 H2. unfold qnat. apply Qle_shift_div_r.
  - unfold Qlt. simpl. lia.
  - assert (Hi : ~ (inject_Z (Z.of_nat i) == 0)%Q) by (unfold Qeq; simpl; lia).
    setoid_replace (inject_Z (Z.of_nat a) / inject_Z (Z.of_nat i) * inject_Z (Z.of_nat j))%Q
      with ((inject_Z (Z.of_nat a) * inject_Z (Z.of_nat j)) / inject_Z (Z.of_nat i))%Q by (field; exact Hi).
    apply Qle_shift_div_l; [unfold Qlt; simpl; lia|].
    unfold Qle. simpl. nia.
Qed.

Lemma qnat_div_nonneg a i : (0 <= qnat a / qnat i)%Q.
Proof.
  destruct i as [|i].
  - unfold qnat. change (inject_Z (Z.of_nat 0)) with 0%Q. unfold Qdiv. rewrite Qmult_0_r. apply Qle_refl.
  - apply Qle_shift_div_l; unfold qnat, Qlt, Qle; simpl; lia.
Qed.

Section Ap.
  Variables (eps t : Z) (n : Z -> nat) (l : Z) (R : list drow).
  Local Notation hits := (map (tp_outer eps t) (filter (fun r => (d_pl r =? l)%Z) R)).
  Hypothesis Hbound : trues hits <= n l.

  Lemma curve_le b x :
    (fst (upd_curve n (fst (running eps t run0 R)) curve0 l b) <= x)%Q <->
    (0 <= x)%Q /\ forall j, nth_error hits j = Some true ->
      100 * trues (firstn (S j) hits) / n l = b -> (prefix_precision hits (S j) <= x)%Q.
  Proof.
    unfold upd_curve. cbn [fst curve0]. rewrite qmaxfold_le.
    assert (Hl := running_label eps t l R run0). cbn [fst snd run0] in Hl.
    set (pts := fst (running eps t run0 R)) in *.
    split; intros (H1 & H2); (split; [exact H1|]).
    - intros j Hj Hb.
      assert (Hn := pr_list_nth hits 0 0 j). rewrite Hj in Hn. rewrite <- Hl in Hn. rewrite nth_error_map in Hn.
      destruct (nth_error (filter (fun p => (d_pl (fst (fst p)) =? l)%Z) pts) j) as [p|] eqn:Ep; [|discriminate].
      cbn [option_map] in Hn. injection Hn as Hn1 Hn2.
      apply nth_error_In in Ep. apply filter_In in Ep. destruct Ep as [Ep1 Ep2].
      assert (Hp := H2 p). unfold pt_precision in Hp. rewrite Hn1, Hn2 in Hp. apply Hp.
      apply filter_In. split; [exact Ep1|]. unfold pt_in. rewrite Ep2. simpl. apply Nat.eqb_eq.
      unfold pt_bin. rewrite Hn2. apply Z.eqb_eq in Ep2. rewrite Ep2. exact Hb.
    - intros p Hp. apply filter_In in Hp. destruct Hp as [Hp1 Hp2]. unfold pt_in in Hp2.
      apply andb_true_iff in Hp2. destruct Hp2 as [Hp2 Hp3]. apply Nat.eqb_eq in Hp3.
      assert (Hin : In p (filter (fun p => (d_pl (fst (fst p)) =? l)%Z) pts)) by (apply filter_In; auto).
      apply In_nth_error in Hin. destruct Hin as (j & Hj).
      assert (Hn := pr_list_nth hits 0 0 j). rewrite <- Hl in Hn. rewrite nth_error_map, Hj in Hn. cbn [option_map] in Hn.
      destruct (nth_error hits j) as [h|] eqn:Eh; [|discriminate]. injection Hn as Hn1 Hn2.
      unfold pt_precision. rewrite Hn1, Hn2. destruct h.
      + apply H2; [exact Eh|]. rewrite <- Hp3. unfold pt_bin. rewrite Hn2. apply Z.eqb_eq in Hp2. rewrite Hp2. reflexivity.
      + unfold Qdiv. change (qnat 0) with 0%Q. rewrite Qmult_0_l. exact H1.
  Qed.

  Lemma interpolated_le k x :
    (interpolated (n l) hits k <= x)%Q <-> (0 <= x)%Q /\ forall b, k <= b <= 100 -> (fst (upd_curve n (fst (running eps t run0 R)) curve0 l b) <= x)%Q.
  Proof.
    unfold interpolated. rewrite qmaxl_le.
    split; intros (H1 & H2); (split; [exact H1|]).
    - intros b Hb. apply curve_le. split; [exact H1|]. intros j Hj Eb.
      apply H2. apply in_map. apply filter_In. split.
      + apply in_seq. assert (j < List.length hits) by (apply nth_error_Some; congruence). lia.
      + unfold prefix_recall_ge. apply Nat.leb_le.
        destruct (Nat.eq_dec (n l) 0) as [E0|E0]; [rewrite E0; lia|].
        assert (Hd := Nat.mul_div_le (100 * trues (firstn (S j) hits)) (n l) E0). rewrite Eb in Hd. nia.
    - intros y Hy. apply in_map_iff in Hy. destruct Hy as (i & <- & Hi). apply filter_In in Hi.
      destruct Hi as [Hi1 Hi2]. apply in_seq in Hi1. unfold prefix_recall_ge in Hi2. apply Nat.leb_le in Hi2.
      unfold prefix_precision. destruct (trues (firstn i hits)) as [|m] eqn:Em.
      { unfold Qdiv. change (qnat 0) with 0%Q. rewrite Qmult_0_l. exact H1. }
      destruct (last_hit hits i) as (j & Hj1 & Hj2 & Hj3); [lia|].
      assert (Hle := trues_firstn_le hits i).
      assert (E0 : n l <> 0) by lia.
      set (b := 100 * S m / n l).
      assert (Hb1 : k <= b) by (apply Nat.div_le_lower_bound; lia).
      assert (Hb2 : b <= 100) by (apply Nat.div_le_upper_bound; lia).
      assert (Hc := proj2 (proj1 (curve_le b x) (H2 b (conj Hb1 Hb2))) j Hj2).
      rewrite Hj3, Em in Hc. specialize (Hc eq_refl). unfold prefix_precision in Hc. rewrite Hj3, Em in Hc.
      eapply Qle_trans; [|exact Hc]. apply qnat_div_antitone; lia.
  Qed.

  Lemma ap_is_spec :
    (average_precision (fun b => fst (upd_curve n (fst (running eps t run0 R)) curve0 l b))
     == ap_spec (n l) hits)%Q.
  Proof. apply average_precision_max. intros k _ x. apply interpolated_le. Qed.
End Ap.

Lemma prefix_precision_range hits i : (0 <= prefix_precision hits i <= 1)%Q.
Proof.
  unfold prefix_precision. split; [apply qnat_div_nonneg|].
  destruct i as [|i]; [simpl; unfold Qdiv; rewrite Qmult_0_r; unfold Qle; simpl; lia|].
  apply Qle_shift_div_r; [unfold qnat, Qlt; simpl; lia|]. rewrite Qmult_1_l.
  assert (H := trues_le_length (firstn (S i) hits)). rewrite firstn_length in H.
  unfold qnat. rewrite <- Zle_Qle. lia.
Qed.

Lemma interpolated_range G hits k : (0 <= interpolated G hits k <= 1)%Q.
Proof.
  split.
  - unfold interpolated. induction (map _ _) as [|a u IH]; simpl; [apply Qle_refl|].
    eapply Qle_trans; [exact IH|]. apply Q.le_max_r.
  - apply qmaxl_le. split; [unfold Qle; simpl; lia|]. intros y Hy. apply in_map_iff in Hy.
    destruct Hy as (i & <- & _). apply prefix_precision_range.
Qed.

Lemma qsum_range (f : nat -> Q) (ks : list nat) : (forall k, In k ks -> (0 <= f k <= 1)%Q) -> (0 <= qsum (map f ks) <= qnat (List.length ks))%Q.
Proof.
  intros H. induction ks as [|k u IH]; [simpl; unfold qnat; simpl; split; apply Qle_refl|].
  assert (IH' := IH (fun x Hx => H x (or_intror Hx))). assert (Hk := H k (or_introl eq_refl)).
  cbn [map qsum fold_right List.length]. unfold qnat in *. rewrite Nat2Z.inj_succ. unfold Z.succ. rewrite inject_Z_plus.
  change (inject_Z 1) with 1%Q. fold (qsum (map f u)). lra.
Qed.

Lemma ap_spec_range G hits : (0 <= ap_spec G hits <= 1)%Q.
Proof.
  unfold ap_spec. assert (H := qsum_range (interpolated G hits) (seq 0 101) (fun k _ => interpolated_range G hits k)).
  rewrite seq_length in H. change (qnat 101) with 101%Q in H. destruct H as [H1 H2].
  split; [apply Qle_shift_div_l|apply Qle_shift_div_r]; try (unfold Qlt; simpl; lia); lra.
Qed.

(* perfect predictions: AP 1 *)
Lemma ap_spec_perfect G : 0 < G -> (ap_spec G (repeat true G) == 1)%Q.
Proof.
  intros HG. unfold ap_spec.
  assert (H : forall k, k <= 100 -> (interpolated G (repeat true G) k == 1)%Q).
  { intros k Hk. apply Qle_antisym; [apply interpolated_range|].
    assert (Hin : In (prefix_precision (repeat true G) G)
              (map (prefix_precision (repeat true G)) (filter (prefix_recall_ge G (repeat true G) k) (seq 1 (List.length (repeat true G)))))).
    { apply in_map. apply filter_In. rewrite repeat_length. split; [apply in_seq; lia|].
      unfold prefix_recall_ge. apply Nat.leb_le. rewrite firstn_all2 by (rewrite repeat_length; lia).
      unfold trues. rewrite countb_true by (intros x Hx; apply repeat_spec in Hx; exact Hx). rewrite repeat_length. nia. }
    assert (Hp : (prefix_precision (repeat true G) G == 1)%Q).
    { unfold prefix_precision. rewrite firstn_all2 by (rewrite repeat_length; lia).
      unfold trues. rewrite countb_true by (intros x Hx; apply repeat_spec in Hx; exact Hx). rewrite repeat_length.
      unfold qnat. field. unfold Qeq. simpl. lia. }
    rewrite <- Hp. unfold interpolated.
    assert (Hq := proj1 (qmaxl_le _ _) (Qle_refl (qmaxl (map (prefix_precision (repeat true G)) (filter (prefix_recall_ge G (repeat true G) k) (seq 1 (List.length (repeat true G)))))))).
    apply Hq. exact Hin. }
  assert (Hs : forall ks, (forall k, In k ks -> k <= 100) -> (qsum (map (interpolated G (repeat true G)) ks) == qnat (List.length ks))%Q).
  { induction ks as [|k u IH]; intros Hks; [reflexivity|].
    cbn [map qsum fold_right List.length]. fold (qsum (map (interpolated G (repeat true G)) u)).
    rewrite IH by (intros x Hx; apply Hks; right; exact Hx). rewrite H by (apply Hks; left; reflexivity).
    unfold qnat. rewrite Nat2Z.inj_succ. unfold Z.succ. rewrite inject_Z_plus. change (inject_Z 1) with 1%Q. ring. }
  rewrite Hs by (intros k Hk; apply in_seq in Hk; lia). rewrite seq_length. reflexivity.
Qed.
