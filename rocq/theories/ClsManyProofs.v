(* Proofs about classifications with many labels (C120). *)
From Verif Require Import Prelude Counting ClsModel ClsSpec ClsLabelProofs ClsProofs ClsManySpec.
From Coq Require Import String QArith.
Local Open Scope nat_scope.
Local Open Scope list_scope.

Lemma place_idx L l : In l L -> place l L = idx L l.
Proof.
  intros H. unfold idx. induction L as [|x L IH]; [destruct H|]. cbn [place index_of].
  rewrite (String.eqb_sym l x). destruct (String.eqb x l) eqn:E; [reflexivity|].
  destruct H as [H|H]; [subst; rewrite String.eqb_refl in E; discriminate|].
  specialize (IH H). destruct (index_of l L) as [i|] eqn:Ei; [|apply index_of_None in Ei; contradiction].
  rewrite IH. cbn [option_map].
  lia.
Qed.

Lemma near_isclose cs a b : In a (labels_of cs) -> In b (labels_of cs) ->
  near cs a b = isclose_label (idx (labels_of cs) a) (idx (labels_of cs) b).
Proof.
  intros Ha Hb. unfold near, isclose_label. rewrite !place_idx by assumption.
  pose proof (idx_range _ _ Hb). rewrite (Z.abs_eq (idx (labels_of cs) b)) by lia. reflexivity.
Qed.

Lemma near_few cs a b : few_labels cs -> In a (labels_of cs) -> In b (labels_of cs) -> near cs a b = String.eqb a b.
Proof.
  intros Hf Ha Hb. rewrite near_isclose by assumption. pose proof (idx_range _ _ Ha). pose proof (idx_range _ _ Hb).
  unfold few_labels in Hf. rewrite isclose_small by lia. apply idx_eqb; assumption.
Qed.

Section Many.
  Variable cs : list classification.
  Hypothesis Hacc : Forall accepted cs.
  Variables tol thr : Z.
  Let L := labels_of cs.
  Let nonzero (s : Z) := (tol <? Z.abs s)%Z.

  Lemma many_row d c r : nth_error cs d = Some c -> In r (canon_rows L d c) ->
    m_match r = near cs (c_groundtruth c) (r_pd_label r) /\ In (r_pd_label r) L /\ In (c_groundtruth c) L /\
    (0 <=? r_pd r)%Z = true.
  Proof.
    clear nonzero tol thr.
    intros Hc Hr. pose proof (nth_error_In _ _ Hc) as Hin.
    apply canon_In in Hr. destruct Hr as (_ & _ & _ & Hg & Hp & Hcand & _).
    pose proof (labels_of_gt cs c Hin) as Ig. pose proof (labels_of_pd cs c _ Hin Hcand) as Ip. cbn in Ip.
    split; [|split; [assumption|split; [assumption|]]].
    - unfold m_match. rewrite Hg, Hp. symmetry. apply near_isclose; assumption.
    - rewrite Hp. pose proof (idx_range L _ Ip). lia.
  Qed.

  Lemma many_datum (b : bool) d c l : nth_error cs d = Some c -> In l L ->
    countb (fun r => (if b then m_tp tol true thr r else m_fp tol true thr r) && (r_pd r =? idx L l)%Z) (canon_rows L d c)
    = if opt_is (decides nonzero thr c) l && (if b then near cs (c_groundtruth c) l else negb (near cs (c_groundtruth c) l)) then 1 else 0.
  Proof.
    intros Hc Hl.
    assert (Hpd : forall r, In r (canon_rows L d c) -> (r_pd r =? idx L l)%Z = String.eqb (r_pd_label r) l).
    { intros r Hr. destruct (many_row d c r Hc Hr) as (_ & Ip & _ & _).
      apply canon_In in Hr. destruct Hr as (_ & _ & _ & _ & -> & _). apply idx_eqb; assumption. }
    rewrite (countb_ext _ (fun r => ((if b then m_match r else negb (m_match r) && (0 <=? r_pd r)%Z) && (tol <? Z.abs (r_score r))%Z && (thr <=? r_score r)%Z && (r_pd r =? idx L l)%Z) && r_winner r)).
    2: { intros r _. unfold m_tp, m_fp, m_fp_raw, m_score. cbv iota.
         destruct b, (m_match r), (tol <? Z.abs (r_score r))%Z, (thr <=? r_score r)%Z, (r_pd r =? idx L l)%Z, (r_winner r), (0 <=? r_pd r)%Z; reflexivity. }
    rewrite (countb_hardmax cs Hacc d c _ Hc). destruct (top_some cs Hacc d c Hc) as (tl & ts & Ht). rewrite Ht.
    apply if_bool_eq. apply existsb_iff. rewrite andb_true_iff, opt_is_true. split.
    - intros (r & Hr & H). rewrite !andb_true_iff in H. destruct H as (Hw & (((Hm & H1) & H2) & Hp)).
      destruct (many_row d c r Hc Hr) as (Em & _ & _ & Ev). rewrite (Hpd r Hr), String.eqb_eq in Hp. rewrite Em, Ev, Hp in Hm.
      split; [|destruct b; [exact Hm|rewrite andb_true_r in Hm; exact Hm]].
      rewrite <- Hp. apply (hm_score cs Hacc tol thr d c r Hc Hr). unfold m_score. rewrite H1, H2, Hw. reflexivity.
    - intros (Hd & Hn). destruct (decides_row cs Hacc tol thr d c l Hc Hd) as (r & Hr & Hw & Hpl & Hs).
      exists r. split; [exact Hr|]. destruct (many_row d c r Hc Hr) as (Em & _ & _ & Ev).
      unfold m_score in Hs. rewrite !andb_true_iff in Hs. destruct Hs as ((H1 & H2) & _).
      rewrite Hw, Em, Ev, H1, H2, (Hpd r Hr), Hpl, String.eqb_refl, andb_true_r. destruct b; rewrite Hn; reflexivity.
  Qed.

  Lemma many_total tables datums sel l : stored cs tables -> selects cs tables datums sel -> In l L ->
    n_tp (total tol true thr datums tables (idx L l)) = countb (fun c => sel c && (opt_is (decides nonzero thr c) l && near cs (c_groundtruth c) l)) cs /\
    n_fp (total tol true thr datums tables (idx L l)) = countb (fun c => sel c && (opt_is (decides nonzero thr c) l && negb (near cs (c_groundtruth c) l))) cs.
  Proof.
    intros Hs Hsel Hl. unfold total. cbn [n_tp n_fp]. split.
    - rewrite (sum_countb cs Hacc tables datums sel _ _ Hs Hsel (fun d c Hc => many_datum true d c l Hc Hl)). apply list_sum_sel.
    - rewrite (sum_countb cs Hacc tables datums sel _ _ Hs Hsel (fun d c Hc => many_datum false d c l Hc Hl)). apply list_sum_sel.
  Qed.
End Many.

Lemma c120_counts cs tables datums sel tol thrs k thr i l :
  Forall accepted cs -> stored cs tables -> selects cs tables datums sel ->
  nth_error thrs k = Some thr -> nth_error (labels_of cs) i = Some l ->
  let pred := decides (fun s => (tol <? Z.abs s)%Z) thr in
  exists row c,
    nth_error (evaluate_counts tol true thrs (List.length (labels_of cs)) datums tables) k = Some row /\
    nth_error row i = Some c /\
    n_tp c = countb (fun c => sel c && (opt_is (pred c) l && near cs (c_groundtruth c) l)) cs /\
    n_fp c = countb (fun c => sel c && (opt_is (pred c) l && negb (near cs (c_groundtruth c) l))) cs.
Proof.
  intros Hacc Hst Hsel Hk Hi pred. rewrite evaluate_counts_total.
  rewrite (map_nth_error _ k thrs Hk). eexists _, _. split; [reflexivity|].
  assert (Hlt : i < List.length (labels_of cs)) by (apply nth_error_Some; congruence).
  assert (Hseq : nth_error (seq 0 (List.length (labels_of cs))) i = Some i).
  { rewrite (nth_error_nth' _ 0) by (rewrite seq_length; exact Hlt). rewrite seq_nth by exact Hlt. reflexivity. }
  split; [apply (map_nth_error _ i _ Hseq)|].
  pose proof (idx_of_nth (labels_of cs) l i (labels_of_NoDup cs) Hi) as Hid.
  rewrite <- Hid. apply many_total; try assumption. eapply nth_error_In. exact Hi.
Qed.

(* ---------------------------------------------------------------- 100002 labels *)

(* a name with n letters *)
Fixpoint letters (n : nat) : string := match n with O => EmptyString | S m => String (Ascii.ascii_of_nat 97) (letters m) end.

Lemma letters_inj i j : letters i = letters j -> i = j.
Proof. revert j. induction i as [|i IH]; intros [|j] H; try discriminate; [reflexivity|]. injection H as H. f_equal. apply IH. exact H. Qed.

Lemma smem_letters i n : smem (letters i) (map letters (seq 0 n)) = (i <? n).
Proof.
  unfold smem. destruct (i <? n) eqn:E.
  - apply existsb_exists. exists (letters i). split; [|apply String.eqb_refl]. apply in_map, in_seq. lia.
  - apply not_true_is_false. intros H. apply existsb_exists in H. destruct H as [x [Hx Ex]]. apply String.eqb_eq in Ex. subst x.
    apply in_map_iff in Hx. destruct Hx as [j [Ej Hj]]. apply letters_inj in Ej. apply in_seq in Hj. lia.
Qed.

(* datum k has ground truth k and predicts k, for k = 0..n; the last datum has ground truth n
   and predicts n + 1, a label that is no ground truth *)
Definition right_one (s : Z) (k : nat) : classification := MkCls "u" (letters k) [letters k] [s].
Definition crowd (s : Z) (n : nat) : list classification :=
  map (right_one s) (seq 0 (S n)) ++ [MkCls "u" (letters n) [letters (S n)] [s]].

Lemma appearance_right s i m rest :
  first_appearance (map letters (seq 0 i)) (List.concat (map (fun c => c_groundtruth c :: c_predictions c) (map (right_one s) (seq i m))) ++ rest)
  = first_appearance (map letters (seq 0 (i + m))) rest.
Proof.
  revert i. induction m as [|m IH]; intros i; [rewrite Nat.add_0_r; reflexivity|].
  cbn [seq map List.concat right_one c_groundtruth c_predictions app first_appearance].
  rewrite smem_letters, Nat.ltb_irrefl.
  replace (map letters (seq 0 i) ++ [letters i]) with (map letters (seq 0 (S i))) by (rewrite seq_S, map_app; reflexivity).
  rewrite smem_letters. replace (i <? S i) with true by lia. rewrite IH. f_equal. f_equal. f_equal. lia.
Qed.

Lemma crowd_labels s n : labels_of (crowd s n) = map letters (seq 0 (S (S n))).
Proof.
  unfold labels_of, crowd. rewrite map_app, concat_app.
  change (@nil string) with (map letters (seq 0 0)). rewrite appearance_right. cbn [Nat.add].
  cbn [map List.concat c_groundtruth c_predictions app first_appearance].
  rewrite smem_letters. replace (n <? S n) with true by lia. rewrite smem_letters, Nat.ltb_irrefl.
  rewrite (seq_S (S n)), map_app. reflexivity.
Qed.

Lemma crowd_accepted s n : Forall accepted (crowd s n).
Proof.
  apply Forall_app. split.
  - apply Forall_forall. intros c H. apply in_map_iff in H. destruct H as [k [<- _]]. split; [discriminate|reflexivity].
  - repeat constructor. discriminate.
Qed.

Lemma crowd_place s n i : i <= S n -> place (letters i) (labels_of (crowd s n)) = Z.of_nat i.
Proof.
  intros H. assert (Hn : nth_error (labels_of (crowd s n)) i = Some (letters i)).
  { rewrite crowd_labels. apply map_nth_error. rewrite (nth_error_nth' _ 0) by (rewrite seq_length; lia).
    rewrite seq_nth by lia. reflexivity. }
  rewrite (place_idx _ _ (nth_error_In _ _ Hn)). apply (idx_of_nth _ _ _ (labels_of_NoDup _) Hn).
Qed.

Lemma crowd_decides s n tol thr c : (thr <= s)%Z -> (tol < Z.abs s)%Z -> In c (crowd s n) ->
  decides (fun s => (tol <? Z.abs s)%Z) thr c = nth_error (c_predictions c) 0.
Proof.
  intros H1 H2 Hc. assert (E : exists g p, c = MkCls "u" g [p] [s]).
  { apply in_app_iff in Hc. destruct Hc as [Hc|[<-|[]]]; [|eexists _, _; reflexivity].
    apply in_map_iff in Hc. destruct Hc as [k [<- _]]. eexists _, _. reflexivity. }
  destruct E as (g & p & ->). unfold decides, top, candidates. cbn. replace (thr <=? s)%Z with true by lia.
  replace (tol <? Z.abs s)%Z with true by lia. reflexivity.
Qed.

Lemma c120_crowd s n tol thr : (100000 <= Z.of_nat (S n))%Z -> (thr <= s)%Z -> (tol < Z.abs s)%Z ->
  exists row c, nth_error (evaluate_counts tol true [thr] (List.length (labels_of (crowd s n))) (fun _ => true)
      (ld_writes (fst (add_data loader_init (crowd s n))))) 0 = Some row /\
    nth_error row (S n) = Some c /\ n_tp c = 1 /\ n_fp c = 0.
Proof.
  intros Hn H1 H2. pose proof (crowd_accepted s n) as Ha.
  assert (Hst : stored (crowd s n) (ld_writes (fst (add_data loader_init (crowd s n))))).
  { split; [apply Permutation_refl|]. rewrite (W_writes _ Ha). apply W_aligned. }
  assert (Hl : nth_error (labels_of (crowd s n)) (S n) = Some (letters (S n))).
  { rewrite crowd_labels. apply map_nth_error. rewrite (nth_error_nth' _ 0) by (rewrite seq_length; lia).
    rewrite seq_nth by lia. reflexivity. }
  destruct (c120_counts (crowd s n) _ (fun _ => true) (fun _ => true) tol [thr] 0 thr (S n) (letters (S n)) Ha Hst
    (fun _ _ _ _ _ _ => eq_refl) eq_refl Hl) as (row & c & Hr & Hc & Ht & Hf).
  exists row, c. split; [exact Hr|]. split; [exact Hc|].
  assert (Hp : forall x, In x (crowd s n) -> opt_is (decides (fun s => (tol <? Z.abs s)%Z) thr x) (letters (S n)) = smem (letters (S n)) (c_predictions x)).
  { intros x Hx. rewrite (crowd_decides s n tol thr x H1 H2 Hx). apply in_app_iff in Hx. destruct Hx as [Hx|[<-|[]]].
    - apply in_map_iff in Hx. destruct Hx as [k [<- _]]. cbn [right_one c_predictions nth_error opt_is smem existsb].
      rewrite orb_false_r. apply String.eqb_sym.
    - cbn [c_predictions nth_error opt_is smem existsb]. rewrite orb_false_r. apply String.eqb_sym. }
  assert (Hr0 : forall x, In x (map (right_one s) (seq 0 (S n))) -> smem (letters (S n)) (c_predictions x) = false).
  { intros x Hx. apply in_map_iff in Hx. destruct Hx as [k [<- Hk]]. apply in_seq in Hk.
    cbn [right_one c_predictions smem existsb]. rewrite orb_false_r. apply String.eqb_neq. intros E. apply letters_inj in E. lia. }
  assert (Hne : near (crowd s n) (letters n) (letters (S n)) = true).
  { unfold near. rewrite !crowd_place by lia. apply Z.leb_le. lia. }
  assert (Hlast : forall f : bool -> bool, countb (fun x => true && (opt_is (decides (fun s => (tol <? Z.abs s)%Z) thr x) (letters (S n)) && f (near (crowd s n) (c_groundtruth x) (letters (S n))))) (crowd s n)
      = if f true then 1 else 0).
  { intros f. rewrite (countb_ext _ (fun x => smem (letters (S n)) (c_predictions x) && f (near (crowd s n) (c_groundtruth x) (letters (S n))))).
    2: { intros x Hx. rewrite (Hp x Hx). reflexivity. }
    unfold crowd at 2. rewrite countb_app. rewrite countb_false.
    2: { intros x Hx. rewrite (Hr0 x Hx). reflexivity. }
    unfold countb. cbn [filter c_predictions c_groundtruth smem existsb]. rewrite String.eqb_refl, Hne. cbn [orb andb]. destruct (f true); reflexivity. }
  split.
  - rewrite Ht. exact (Hlast (fun b => b)).
  - rewrite Hf. exact (Hlast negb).
Qed.

Lemma c120_refuted :
  exists cs tol thr l i row c,
    Forall accepted cs /\ stored cs (ld_writes (fst (add_data loader_init cs))) /\
    nth_error (labels_of cs) i = Some l /\
    (forall x, In x cs -> c_groundtruth x <> l) /\
    nth_error (evaluate_counts tol true [thr] (List.length (labels_of cs)) (fun _ => true)
        (ld_writes (fst (add_data loader_init cs)))) 0 = Some row /\
    nth_error row i = Some c /\ n_tp c = 1 /\ n_fp c = 0 /\ precision c == 1.
Proof.
  assert (E : exists n, Z.of_nat (S n) = 100000%Z).
  { exists (Z.to_nat 99999). rewrite Nat2Z.inj_succ, Z2Nat.id by lia. reflexivity. }
  destruct E as (n & En).
  destruct (c120_crowd 5 n 1 2 ltac:(lia) ltac:(lia) ltac:(cbn; lia)) as (row & c & Hr & Hc & Ht & Hf).
  exists (crowd 5 n), 1%Z, 2%Z, (letters (S n)), (S n), row, c.
  pose proof (crowd_accepted 5 n) as Ha.
  split; [exact Ha|]. split; [split; [apply Permutation_refl|]; rewrite (W_writes _ Ha); apply W_aligned|].
  split.
  { rewrite crowd_labels. apply map_nth_error. rewrite (nth_error_nth' _ 0) by (rewrite seq_length; lia).
    rewrite seq_nth by lia. reflexivity. }
  split.
  { intros x Hx E. apply in_app_iff in Hx. destruct Hx as [Hx|[<-|[]]].
    - apply in_map_iff in Hx. destruct Hx as [k [<- Hk]]. apply letters_inj in E. apply in_seq in Hk. lia.
    - apply letters_inj in E. lia. }
  split; [exact Hr|]. split; [exact Hc|]. split; [exact Ht|]. split; [exact Hf|].
  unfold precision. rewrite Ht, Hf. reflexivity.
Qed.
