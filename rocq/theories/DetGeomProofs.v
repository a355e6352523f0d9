(* Proofs about the IoU computations (C25, C26). *)
From Verif Require Import Prelude Counting CacheModel ClsModel DetModel DetSpec.
From Coq Require Import String QArith Qminmax Lqa Lia.
Local Open Scope list_scope.

Lemma div_where_nonneg a b : (0 <= a)%Q -> (0 <= div_where a b)%Q.
Proof.
  intros H. unfold div_where. destruct (Qlt_le_dec b epsQ); [lra|].
  apply Qle_shift_div_l; [unfold epsQ in *; lra|lra].
Qed.

Lemma div_where_le1 a b : (a <= b)%Q -> (div_where a b <= 1)%Q.
Proof.
  intros H. unfold div_where. destruct (Qlt_le_dec b epsQ); [lra|].
  apply Qle_shift_div_r; [unfold epsQ in *; lra|lra].
Qed.

Lemma div_where_0 a b : (a == 0)%Q -> (div_where a b == 0)%Q.
Proof.
  intros H. unfold div_where. destruct (Qlt_le_dec b epsQ); [reflexivity|].
  rewrite H. unfold Qdiv. lra.
Qed.

Lemma div_where_comp a a' b b' : (a == a')%Q -> (b == b')%Q -> (div_where a b == div_where a' b')%Q.
Proof.
  intros H1 H2. unfold div_where.
  destruct (Qlt_le_dec b epsQ), (Qlt_le_dec b' epsQ); try lra. rewrite H1, H2. reflexivity.
Qed.

Definition xw (a b : box) := Qmax 0 (Qmin (b_xmax a) (b_xmax b) - Qmax (b_xmin a) (b_xmin b)).
Definition yh (a b : box) := Qmax 0 (Qmin (b_ymax a) (b_ymax b) - Qmax (b_ymin a) (b_ymin b)).

Lemma bbox_iou_eq a b :
  bbox_iou a b = div_where (xw a b * yh a b) (area a + area b - xw a b * yh a b).
Proof. reflexivity. Qed.

Ltac qmm := repeat match goal with
  | |- context[Qmax ?x ?y] => pose proof (Q.le_max_l x y); pose proof (Q.le_max_r x y);
        destruct (Q.max_dec x y) as [?E|?E]; generalize dependent (Qmax x y); intros
  | |- context[Qmin ?x ?y] => pose proof (Q.le_min_l x y); pose proof (Q.le_min_r x y);
        destruct (Q.min_dec x y) as [?E|?E]; generalize dependent (Qmin x y); intros
  end.

Lemma xw_nonneg a b : (0 <= xw a b)%Q.
Proof. apply Q.le_max_l. Qed.
Lemma yh_nonneg a b : (0 <= yh a b)%Q.
Proof. apply Q.le_max_l. Qed.

Lemma seg_comm p q r s : (Qmax 0 (Qmin p q - Qmax r s) == Qmax 0 (Qmin q p - Qmax s r))%Q.
Proof. rewrite (Q.min_comm p q), (Q.max_comm r s). reflexivity. Qed.

Lemma seg_pos p q r s : (0 < Qmax 0 (Qmin p q - Qmax r s))%Q ->
  (Qmax 0 (Qmin p q - Qmax r s) <= p - r /\ Qmax 0 (Qmin p q - Qmax r s) <= q - s)%Q.
Proof.
  intros H.
  pose proof (Q.le_min_l p q); pose proof (Q.le_min_r p q).
  pose proof (Q.le_max_l r s); pose proof (Q.le_max_r r s).
  destruct (Q.max_dec 0 (Qmin p q - Qmax r s)) as [E|E]; rewrite E in H; [lra|].
  rewrite E. split; lra.
Qed.

Lemma inter_le a b :
  (xw a b * yh a b == 0 \/ (xw a b * yh a b <= area a /\ xw a b * yh a b <= area b))%Q.
Proof.
  pose proof (xw_nonneg a b). pose proof (yh_nonneg a b).
  destruct (Qlt_le_dec 0 (xw a b)) as [Hx|Hx]; [|left; assert (xw a b == 0)%Q by lra; nra].
  destruct (Qlt_le_dec 0 (yh a b)) as [Hy|Hy]; [|left; assert (yh a b == 0)%Q by lra; nra].
  right. unfold area.
  pose proof (seg_pos _ _ _ _ Hx) as [H1 H2]. pose proof (seg_pos _ _ _ _ Hy) as [H3 H4].
  fold (xw a b) in *. fold (yh a b) in *. split; nra.
Qed.

Lemma bbox_sym a b : (bbox_iou a b == bbox_iou b a)%Q.
Proof.
  rewrite !bbox_iou_eq.
  assert (Ex : (xw a b == xw b a)%Q) by apply seg_comm.
  assert (Ey : (yh a b == yh b a)%Q) by apply seg_comm.
  apply div_where_comp; rewrite Ex, Ey; lra.
Qed.

Lemma bbox_range a b : (0 <= bbox_iou a b <= 1)%Q.
Proof.
  rewrite bbox_iou_eq. pose proof (xw_nonneg a b). pose proof (yh_nonneg a b).
  assert (0 <= xw a b * yh a b)%Q by nra. split.
  - apply div_where_nonneg; assumption.
  - destruct (inter_le a b) as [E|[E1 E2]].
    + rewrite (div_where_0 _ _ E). lra.
    + apply div_where_le1. lra.
Qed.

(* the intersection box gives the sides used by the code *)
Lemma inter_sides a b c : is_intersection a b c ->
  (b_xmin c == Qmax (b_xmin a) (b_xmin b) /\ b_xmax c == Qmin (b_xmax a) (b_xmax b) /\
   b_ymin c == Qmax (b_ymin a) (b_ymin b) /\ b_ymax c == Qmin (b_ymax a) (b_ymax b))%Q.
Proof.
  intros [[W1 W2] H].
  assert (C1 : inside c (b_xmin c) (b_ymin c)) by (unfold inside; lra).
  assert (C2 : inside c (b_xmax c) (b_ymax c)) by (unfold inside; lra).
  apply H in C1. apply H in C2. unfold inside in C1, C2.
  (* the corner of the max-extents also lies in both *)
  assert (D1 : inside c (Qmax (b_xmin a) (b_xmin b)) (Qmax (b_ymin a) (b_ymin b))).
  { apply H. unfold inside.
    destruct (Q.max_dec (b_xmin a) (b_xmin b)) as [E|E], (Q.max_dec (b_ymin a) (b_ymin b)) as [E'|E'];
      rewrite E, E';
      pose proof (Q.le_max_l (b_xmin a) (b_xmin b)) as G1; pose proof (Q.le_max_r (b_xmin a) (b_xmin b)) as G2;
      pose proof (Q.le_max_l (b_ymin a) (b_ymin b)) as G3; pose proof (Q.le_max_r (b_ymin a) (b_ymin b)) as G4;
      rewrite E in G1, G2; rewrite E' in G3, G4; lra. }
  assert (D2 : inside c (Qmin (b_xmax a) (b_xmax b)) (Qmin (b_ymax a) (b_ymax b))).
  { apply H. unfold inside.
    destruct (Q.min_dec (b_xmax a) (b_xmax b)) as [E|E], (Q.min_dec (b_ymax a) (b_ymax b)) as [E'|E'];
      rewrite E, E';
      pose proof (Q.le_min_l (b_xmax a) (b_xmax b)) as G1; pose proof (Q.le_min_r (b_xmax a) (b_xmax b)) as G2;
      pose proof (Q.le_min_l (b_ymax a) (b_ymax b)) as G3; pose proof (Q.le_min_r (b_ymax a) (b_ymax b)) as G4;
      rewrite E in G1, G2; rewrite E' in G3, G4; lra. }
  unfold inside in D1, D2.
  assert (M1 : (Qmax (b_xmin a) (b_xmin b) <= b_xmin c)%Q) by (apply Q.max_lub; lra).
  assert (M2 : (Qmax (b_ymin a) (b_ymin b) <= b_ymin c)%Q) by (apply Q.max_lub; lra).
  assert (M3 : (b_xmax c <= Qmin (b_xmax a) (b_xmax b))%Q) by (apply Q.min_glb; lra).
  assert (M4 : (b_ymax c <= Qmin (b_ymax a) (b_ymax b))%Q) by (apply Q.min_glb; lra).
  repeat split; lra.
Qed.

Lemma bbox_formula a b c : is_intersection a b c ->
  (epsQ <= area a + area b - area c)%Q ->
  (bbox_iou a b == area c / (area a + area b - area c))%Q.
Proof.
  intros H He. destruct (inter_sides a b c H) as (E1 & E2 & E3 & E4).
  destruct H as [[W1 W2] _].
  assert (Ex : (xw a b == b_xmax c - b_xmin c)%Q).
  { unfold xw. rewrite Q.max_r; rewrite <- E1, <- E2; lra. }
  assert (Ey : (yh a b == b_ymax c - b_ymin c)%Q).
  { unfold yh. rewrite Q.max_r; rewrite <- E3, <- E4; lra. }
  assert (E : (xw a b * yh a b == area c)%Q) by (unfold area; rewrite Ex, Ey; reflexivity).
  rewrite bbox_iou_eq. rewrite (div_where_comp _ (area c) _ (area a + area b - area c)%Q); [|exact E|rewrite E; reflexivity].
  unfold div_where. destruct (Qlt_le_dec (area a + area b - area c) epsQ); [lra|reflexivity].
Qed.

(* boxes sharing at most boundary points have IoU 0 *)
Lemma seg_mid p q r s : (0 < Qmax 0 (Qmin p q - Qmax r s))%Q ->
  exists x, (r < x /\ x < p /\ s < x /\ x < q)%Q.
Proof.
  intros H. exists ((Qmin p q + Qmax r s) / 2)%Q.
  pose proof (Q.le_min_l p q); pose proof (Q.le_min_r p q).
  pose proof (Q.le_max_l r s); pose proof (Q.le_max_r r s).
  destruct (Q.max_dec 0 (Qmin p q - Qmax r s)) as [E|E]; rewrite E in H; [lra|].
  assert (Hd : ((Qmin p q + Qmax r s) / 2 == (Qmin p q + Qmax r s) * (1 # 2))%Q) by (unfold Qdiv; reflexivity).
  rewrite Hd. lra.
Qed.

Lemma bbox_disjoint a b : disjoint_interiors a b -> (bbox_iou a b == 0)%Q.
Proof.
  intros H. rewrite bbox_iou_eq. apply div_where_0.
  pose proof (xw_nonneg a b). pose proof (yh_nonneg a b).
  destruct (Qlt_le_dec 0 (xw a b)) as [Hx|Hx]; [|assert (xw a b == 0)%Q by lra; nra].
  destruct (Qlt_le_dec 0 (yh a b)) as [Hy|Hy]; [|assert (yh a b == 0)%Q by lra; nra].
  exfalso. destruct (seg_mid _ _ _ _ Hx) as (x & Hx'). destruct (seg_mid _ _ _ _ Hy) as (y & Hy').
  apply (H x y). tauto.
Qed.

Lemma bbox_self a : wf_box a -> (epsQ <= area a)%Q -> (bbox_iou a a == 1)%Q.
Proof.
  intros W He.
  assert (I : is_intersection a a a) by (split; [exact W|intros; tauto]).
  rewrite (bbox_formula a a a I); [|lra].
  assert (E : (area a + area a - area a == area a)%Q) by lra. rewrite E.
  field. unfold epsQ in He. lra.
Qed.

(* positive IoU means a positive-area overlap *)
Lemma bbox_positive a b : (0 < bbox_iou a b)%Q -> ~ disjoint_interiors a b.
Proof. intros H D. pose proof (bbox_disjoint a b D). lra. Qed.

(* IoU 1 means equal boxes (for boxes of positive area) *)
Lemma div_where_1 a b : (div_where a b == 1)%Q -> (a == b)%Q.
Proof.
  unfold div_where. destruct (Qlt_le_dec b epsQ); [intros H; lra|].
  intros H. assert (Hb : ~ (b == 0)%Q) by (unfold epsQ in *; lra).
  assert (E : (a / b * b == a)%Q) by (field; exact Hb). rewrite H in E. lra.
Qed.

Lemma bbox_one a b : (bbox_iou a b == 1)%Q ->
  (b_xmin a == b_xmin b /\ b_xmax a == b_xmax b /\ b_ymin a == b_ymin b /\ b_ymax a == b_ymax b)%Q.
Proof.
  intros H. rewrite bbox_iou_eq in H.
  assert (Hu : (epsQ <= area a + area b - xw a b * yh a b)%Q).
  { unfold div_where in H. destruct (Qlt_le_dec (area a + area b - xw a b * yh a b) epsQ); [lra|assumption]. }
  apply div_where_1 in H.
  pose proof (xw_nonneg a b). pose proof (yh_nonneg a b).
  assert (He : (0 < epsQ)%Q) by (unfold epsQ; lra).
  assert (Hp : (0 < xw a b * yh a b)%Q) by lra.
  destruct (Qlt_le_dec 0 (xw a b)) as [Hx|Hx]; [|exfalso; assert (xw a b == 0)%Q by lra; nra].
  destruct (Qlt_le_dec 0 (yh a b)) as [Hy|Hy]; [|exfalso; assert (yh a b == 0)%Q by lra; nra].
  pose proof (seg_pos _ _ _ _ Hx) as [K1 K2]. pose proof (seg_pos _ _ _ _ Hy) as [K3 K4].
  fold (xw a b) in *. fold (yh a b) in *. unfold area in H.
  set (w := xw a b) in *. set (h := yh a b) in *.
  assert (A1 : (w * h <= (b_xmax a - b_xmin a) * (b_ymax a - b_ymin a))%Q) by nra.
  assert (A2 : (w * h <= (b_xmax b - b_xmin b) * (b_ymax b - b_ymin b))%Q) by nra.
  assert (B1 : (w * h == (b_xmax a - b_xmin a) * (b_ymax a - b_ymin a))%Q) by lra.
  assert (B2 : (w * h == (b_xmax b - b_xmin b) * (b_ymax b - b_ymin b))%Q) by lra.
  assert (W1 : (w == b_xmax a - b_xmin a)%Q) by (apply Qle_antisym; [assumption|nra]).
  assert (W2 : (w == b_xmax b - b_xmin b)%Q) by (apply Qle_antisym; [assumption|nra]).
  assert (V1 : (h == b_ymax a - b_ymin a)%Q) by (apply Qle_antisym; [assumption|nra]).
  assert (V2 : (h == b_ymax b - b_ymin b)%Q) by (apply Qle_antisym; [assumption|nra]).
  assert (Ew : (w == Qmin (b_xmax a) (b_xmax b) - Qmax (b_xmin a) (b_xmin b))%Q).
  { unfold w, xw. destruct (Q.max_dec 0 (Qmin (b_xmax a) (b_xmax b) - Qmax (b_xmin a) (b_xmin b))) as [E|E]; [|exact E].
    unfold w, xw in Hx. rewrite E in Hx. lra. }
  assert (Eh : (h == Qmin (b_ymax a) (b_ymax b) - Qmax (b_ymin a) (b_ymin b))%Q).
  { unfold h, yh. destruct (Q.max_dec 0 (Qmin (b_ymax a) (b_ymax b) - Qmax (b_ymin a) (b_ymin b))) as [E|E]; [|exact E].
    unfold h, yh in Hy. rewrite E in Hy. lra. }
  pose proof (Q.le_min_l (b_xmax a) (b_xmax b)); pose proof (Q.le_min_r (b_xmax a) (b_xmax b)).
  pose proof (Q.le_max_l (b_xmin a) (b_xmin b)); pose proof (Q.le_max_r (b_xmin a) (b_xmin b)).
  pose proof (Q.le_min_l (b_ymax a) (b_ymax b)); pose proof (Q.le_min_r (b_ymax a) (b_ymax b)).
  pose proof (Q.le_max_l (b_ymin a) (b_ymin b)); pose proof (Q.le_max_r (b_ymin a) (b_ymin b)).
  clearbody w h. repeat split; lra.
Qed.

(* ------------------------------------------------------------------ *)
(** * Bitmasks *)

Lemma countb_seq_S (P : nat -> bool) n : countb P (seq 0 (S n)) = ((if P O then 1 else 0) + countb (fun i => P (S i)) (seq 0 n))%nat.
Proof.
  cbn [seq]. rewrite <- seq_shift. rewrite <- (countb_map S P (seq 0 n)). unfold countb.
  cbn [filter]. destruct (P O); reflexivity.
Qed.

Lemma count_pixels m : countb (fun x => x) m = pixels_where (List.length m) (pixel m).
Proof.
  unfold pixels_where. induction m as [|x t IH]; [reflexivity|].
  cbn [List.length]. rewrite countb_seq_S. unfold pixel at 1. cbn [nth].
  change (fun i => pixel (x :: t) (S i)) with (pixel t).
  rewrite <- IH. unfold countb. simpl. destruct x; reflexivity.
Qed.

Lemma count_common a : forall b, List.length a = List.length b ->
  countb (fun p => fst p && snd p) (combine a b)
  = pixels_where (List.length a) (fun i => pixel a i && pixel b i).
Proof.
  unfold pixels_where. induction a as [|x t IH]; intros [|y u] Hl; try discriminate; [reflexivity|].
  cbn [List.length combine]. rewrite countb_seq_S. unfold pixel at 1 2. cbn [nth].
  change (fun i => pixel (x :: t) (S i) && pixel (y :: u) (S i)) with (fun i => pixel t i && pixel u i).
  rewrite <- IH by (injection Hl; auto). unfold countb. simpl. destruct (x && y); reflexivity.
Qed.

Lemma count_or {A} (P Q : A -> bool) l :
  (countb P l + countb Q l = countb (fun i => P i || Q i) l + countb (fun i => P i && Q i) l)%nat.
Proof.
  unfold countb. induction l as [|x t IH]; simpl; [reflexivity|].
  destruct (P x), (Q x); simpl; lia.
Qed.

Lemma bitmask_formula a b : List.length a = List.length b ->
  let n := List.length a in
  let inter := pixels_where n (fun i => pixel a i && pixel b i) in
  let union := pixels_where n (fun i => pixel a i || pixel b i) in
  (bitmask_iou a b == if Nat.eqb union 0 then 0 else qnat inter / qnat union)%Q.
Proof.
  intros Hl n inter union. unfold bitmask_iou.
  rewrite (count_pixels a), (count_pixels b), (count_common a b Hl). rewrite <- Hl. fold n. fold inter.
  assert (Hu : (pixels_where n (pixel a) + pixels_where n (pixel b) - inter = union)%nat).
  { unfold union, inter, pixels_where. pose proof (count_or (pixel a) (pixel b) (seq 0 n)). lia. }
  rewrite Hu. unfold div_where, epsQ, qnat.
  destruct (Nat.eqb_spec union 0) as [E|E].
  - rewrite E. destruct (Qlt_le_dec (inject_Z (Z.of_nat 0)) (1 # 1000000000)) as [|Hx]; [reflexivity|].
    exfalso. unfold Qle in Hx. simpl in Hx. lia.
  - destruct (Qlt_le_dec (inject_Z (Z.of_nat union)) (1 # 1000000000)) as [Hx|]; [|reflexivity].
    exfalso. unfold Qlt in Hx. simpl in Hx. lia.
Qed.

Lemma pixels_mono n P Q : (forall i, P i = true -> Q i = true) -> (pixels_where n P <= pixels_where n Q)%nat.
Proof. intros H. apply countb_mono. auto. Qed.

Lemma qnat_le a b : (a <= b)%nat -> (qnat a <= qnat b)%Q.
Proof. intros H. unfold qnat. rewrite <- Zle_Qle. lia. Qed.
Lemma qnat_pos a : (0 < a)%nat -> (0 < qnat a)%Q.
Proof. intros H. unfold qnat. change 0%Q with (inject_Z 0). rewrite <- Zlt_Qlt. lia. Qed.

Lemma bitmask_range a b : List.length a = List.length b -> (0 <= bitmask_iou a b <= 1)%Q.
Proof.
  intros Hl. rewrite (bitmask_formula a b Hl).
  set (inter := pixels_where _ (fun i => pixel a i && pixel b i)). set (union := pixels_where _ (fun i => pixel a i || pixel b i)).
  destruct (Nat.eqb_spec union 0) as [E|E]; [lra|].
  assert (Hu : (0 < qnat union)%Q) by (apply qnat_pos; lia).
  assert (Hi : (0 <= qnat inter)%Q) by (apply (qnat_le 0); lia).
  assert (Hiu : (qnat inter <= qnat union)%Q).
  { apply qnat_le. apply pixels_mono. intros i H. apply andb_true_iff in H. destruct H as [-> _]. reflexivity. }
  split; [apply Qle_shift_div_l; lra|apply Qle_shift_div_r; lra].
Qed.

Lemma bitmask_sym a b : List.length a = List.length b -> (bitmask_iou a b == bitmask_iou b a)%Q.
Proof.
  intros Hl. rewrite (bitmask_formula a b Hl), (bitmask_formula b a (eq_sym Hl)), <- Hl.
  assert (E1 : pixels_where (List.length a) (fun i => pixel a i && pixel b i)
             = pixels_where (List.length a) (fun i => pixel b i && pixel a i))
    by (apply countb_ext; intros; apply andb_comm).
  assert (E2 : pixels_where (List.length a) (fun i => pixel a i || pixel b i)
             = pixels_where (List.length a) (fun i => pixel b i || pixel a i))
    by (apply countb_ext; intros; apply orb_comm).
  rewrite E1, E2. reflexivity.
Qed.

Lemma polygon_range i u : (0 <= i)%Q -> (i <= u)%Q -> (0 <= polygon_iou i u <= 1)%Q.
Proof. intros H1 H2. split; [apply div_where_nonneg; exact H1|apply div_where_le1; exact H2]. Qed.

(* ------------------------------------------------------------------ *)
(** * The IoU matrix *)

Lemma nth_error_concat_rows {A} n : forall (ls : list (list A)) i j,
  (forall l, In l ls -> List.length l = n) -> (j < n)%nat ->
  nth_error (List.concat ls) (i * n + j) = match nth_error ls i with Some l => nth_error l j | None => None end.
Proof.
  induction ls as [|l t IH]; intros i j Hn Hj.
  - simpl. destruct (i * n + j)%nat, i; reflexivity.
  - cbn [List.concat]. destruct i as [|i].
    + simpl. rewrite nth_error_app1; [reflexivity|]. rewrite (Hn l) by (left; reflexivity). exact Hj.
    + cbn [nth_error]. assert (Hl := Hn l (or_introl eq_refl)).
      rewrite nth_error_app2 by (simpl; lia).
      replace (S i * n + j - List.length l)%nat with (i * n + j)%nat by (simpl; lia).
      apply IH; [|exact Hj]. intros l' Hl'. apply Hn. right; exact Hl'.
Qed.

Lemma iou_matrix {G P V} (f : G -> P -> V) gts pds i j :
  reshaped (iou_list f gts pds) (List.length gts) i j
  = match nth_error pds i, nth_error gts j with
    | Some p, Some g => Some (f g p)
    | _, _ => None
    end.
Proof.
  unfold reshaped, iou_list. destruct (Nat.ltb_spec j (List.length gts)) as [H|H].
  - rewrite nth_error_concat_rows; [|intros l Hl; apply in_map_iff in Hl; destruct Hl as (p & <- & _); apply map_length|exact H].
    rewrite nth_error_map. destruct (nth_error pds i) as [p|]; simpl; [|reflexivity].
    rewrite nth_error_map. destruct (nth_error gts j); reflexivity.
  - destruct (nth_error pds i); [|reflexivity].
    destruct (nth_error gts j) eqn:E; [|reflexivity].
    assert (j < List.length gts)%nat by (apply nth_error_Some; congruence). lia.
Qed.
