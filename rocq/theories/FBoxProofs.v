(* Proofs about the IoU in binary64 (C117). *)
From Verif Require Import Prelude Counting CacheModel ClsModel DetModel DetSpec DetGeomProofs GeoModel GeoSpec GeoProofs
  FloatModel FloatProofs RndProofs FReportModel FReportSpec FReportProofs FReportRoc FTextProofs FBoxModel FBoxSpec.
From Coq Require Import String QArith Qabs Qminmax Lqa Lia.
Local Open Scope Z_scope.

(* ------------------------------------------------------------------ rounding *)
Lemma srnd_neg x : (x <= 0)%Q -> (srnd x == - rnd (- x))%Q.
Proof. intros H. unfold srnd. destruct (Qlt_le_dec x 0); [reflexivity|]. rewrite !rnd_zero by lra. reflexivity. Qed.
Lemma srnd_opp x : (srnd (- x) == - srnd x)%Q.
Proof.
  destruct (Qlt_le_dec x 0) as [L|L].
  - rewrite (srnd_nonneg (- x)) by lra. rewrite (srnd_neg x) by lra. ring.
  - rewrite (srnd_neg (- x)) by lra. rewrite (srnd_nonneg x L). rewrite (rnd_comp (- - x) x) by ring. reflexivity.
Qed.
Lemma srnd_mono x y : (x <= y)%Q -> (srnd x <= srnd y)%Q.
Proof.
  intros H. destruct (Qlt_le_dec x 0) as [Lx|Lx]; [destruct (Qlt_le_dec y 0) as [Ly|Ly]|].
  - rewrite (srnd_neg x), (srnd_neg y) by lra. pose proof (rnd_mono (- y) (- x) ltac:(lra)). lra.
  - rewrite (srnd_neg x) by lra. rewrite (srnd_nonneg y Ly). pose proof (rnd_nonneg (- x)). pose proof (rnd_nonneg y). lra.
  - rewrite (srnd_nonneg x Lx), (srnd_nonneg y) by lra. apply rnd_mono, H.
Qed.
Lemma double_fl x : (0 <= x)%Q -> double x -> fl x.
Proof.
  intros L (k & e & Hk & E). exists k, e. split; [|exact E]. split; [|lia]. rewrite Zle_Qle.
  apply (Qmult_lt_0_le_reg_r _ _ (pow2 e) (pow2_pos e)). rewrite <- E. change (inject_Z 0) with 0%Q. lra.
Qed.
Lemma double_opp x : double x -> double (- x).
Proof. intros (k & e & Hk & E). exists (- k), e. split; [lia|]. rewrite E, inject_Z_opp. ring. Qed.
Lemma srnd_double x : double x -> (srnd x == x)%Q.
Proof.
  intros D. destruct (Qlt_le_dec x 0) as [L|L].
  - rewrite (srnd_neg x) by lra. rewrite (rnd_id (- x)) by (apply double_fl; [lra|apply double_opp, D]). ring.
  - rewrite (srnd_nonneg x L). apply rnd_id, double_fl; assumption.
Qed.
Lemma max_srnd x : (Qmax 0 (srnd x) == rnd x)%Q.
Proof.
  destruct (Qlt_le_dec x 0) as [L|L].
  - rewrite (rnd_zero x) by lra. rewrite (srnd_neg x) by lra. pose proof (rnd_nonneg (- x)). apply Q.max_l. lra.
  - rewrite (srnd_nonneg x L). apply Q.max_r, rnd_nonneg.
Qed.
Lemma srnd_zero : srnd 0 = 0%Q.
Proof. reflexivity. Qed.

(* ------------------------------------------------------------------ the value *)
Lemma fdiv_where_wd a b a' b' : (a == a')%Q -> (b == b')%Q -> (fdiv_where a b == fdiv_where a' b')%Q.
Proof.
  intros Ea Eb. unfold fdiv_where. destruct (Qlt_le_dec b nano), (Qlt_le_dec b' nano); try lra.
  apply srnd_wd. rewrite Ea, Eb. reflexivity.
Qed.
Lemma nano_pos : (0 < nano)%Q.
Proof. vm_compute. reflexivity. Qed.
Lemma fdiv_where_0 a b : (a == 0)%Q -> (fdiv_where a b == 0)%Q.
Proof.
  intros E. unfold fdiv_where. destruct (Qlt_le_dec b nano); [reflexivity|].
  rewrite (srnd_wd (a / b) 0); [reflexivity|]. rewrite E. unfold Qdiv. ring.
Qed.

Definition raw_w (a b : box) : Q := (Qmin (b_xmax a) (b_xmax b) - Qmax (b_xmin a) (b_xmin b))%Q.
Definition raw_h (a b : box) : Q := (Qmin (b_ymax a) (b_ymax b) - Qmax (b_ymin a) (b_ymin b))%Q.
Definition finter (a b : box) : Q := rnd (rnd (raw_w a b) * rnd (raw_h a b)).
Definition farea (a : box) : Q := srnd (srnd (b_xmax a - b_xmin a) * srnd (b_ymax a - b_ymin a)).
Definition funion (a b : box) : Q := srnd (srnd (farea a + farea b) - finter a b).
Lemma fiou_rows_eq a b : (fiou_rows a b == fdiv_where (finter a b) (funion a b))%Q.
Proof.
  assert (E : (srnd (Qmax 0 (srnd (raw_w a b)) * Qmax 0 (srnd (raw_h a b))) == finter a b)%Q).
  { rewrite (srnd_wd _ (rnd (raw_w a b) * rnd (raw_h a b))) by (rewrite !max_srnd; reflexivity).
    rewrite srnd_nonneg; [reflexivity|]. pose proof (rnd_nonneg (raw_w a b)). pose proof (rnd_nonneg (raw_h a b)). nra. }
  unfold fiou_rows. apply fdiv_where_wd; [exact E|]. unfold funion, farea. apply srnd_wd. fold (raw_w a b). fold (raw_h a b). rewrite E. reflexivity.
Qed.
Lemma finter_nonneg a b : (0 <= finter a b)%Q.
Proof. apply rnd_nonneg. Qed.
Lemma finter_fl a b : fl (finter a b).
Proof. apply rnd_fl. Qed.
Lemma raw_le a b : (raw_w a b <= b_xmax a - b_xmin a)%Q /\ (raw_w a b <= b_xmax b - b_xmin b)%Q /\
  (raw_h a b <= b_ymax a - b_ymin a)%Q /\ (raw_h a b <= b_ymax b - b_ymin b)%Q.
Proof.
  unfold raw_w, raw_h. repeat match goal with
    | |- context[Qmax ?x ?y] => pose proof (Q.le_max_l x y); pose proof (Q.le_max_r x y); generalize dependent (Qmax x y); intros
    | |- context[Qmin ?x ?y] => pose proof (Q.le_min_l x y); pose proof (Q.le_min_r x y); generalize dependent (Qmin x y); intros end.
  repeat split; lra.
Qed.
Lemma part_area w h W H : (w <= W)%Q -> (h <= H)%Q -> (0 < w)%Q -> (0 < h)%Q -> (rnd (rnd w * rnd h) <= srnd (srnd W * srnd H))%Q.
Proof.
  intros Hw Hh w0 h0. rewrite (srnd_nonneg W), (srnd_nonneg H) by lra. pose proof (rnd_mono _ _ Hw). pose proof (rnd_mono _ _ Hh).
  pose proof (rnd_nonneg w). pose proof (rnd_nonneg h). rewrite srnd_nonneg by nra. apply rnd_mono. nra.
Qed.
Lemma finter_le a b : (finter a b == 0)%Q \/ (0 < raw_w a b /\ 0 < raw_h a b /\ finter a b <= farea a /\ finter a b <= farea b)%Q.
Proof.
  destruct (raw_le a b) as (W1 & W2 & H1 & H2). unfold finter.
  destruct (Qlt_le_dec 0 (raw_w a b)) as [Lw|Lw].
  - destruct (Qlt_le_dec 0 (raw_h a b)) as [Lh|Lh].
    + right. split; [exact Lw|]. split; [exact Lh|]. split; apply part_area; assumption.
    + left. apply rnd_zero_iff. rewrite (rnd_zero (raw_h a b)) by exact Lh. lra.
  - left. apply rnd_zero_iff. rewrite (rnd_zero (raw_w a b)) by exact Lw. lra.
Qed.
Lemma finter_funion a b : (finter a b == 0)%Q \/ (finter a b <= funion a b)%Q.
Proof.
  destruct (finter_le a b) as [E|(_ & _ & L1 & L2)]; [left; exact E|right].
  pose proof (finter_nonneg a b) as N. pose proof (finter_fl a b) as F. unfold funion.
  assert (A : (2 * finter a b <= srnd (farea a + farea b))%Q).
  { rewrite srnd_nonneg by lra. apply rnd_ge; [apply fl_double, F|lra]. }
  rewrite srnd_nonneg by lra. apply rnd_ge; [exact F|lra].
Qed.
Lemma fiou_rows_range a b : (0 <= fiou_rows a b <= 1)%Q.
Proof.
  rewrite fiou_rows_eq. destruct (finter_funion a b) as [E|L].
  - rewrite (fdiv_where_0 _ _ E). lra.
  - pose proof (finter_nonneg a b) as N. pose proof nano_pos as P. unfold fdiv_where. destruct (Qlt_le_dec (funion a b) nano) as [B|B]; [lra|].
    assert (Q0 : (0 <= finter a b / funion a b)%Q) by (apply Qle_shift_div_l; lra).
    rewrite (srnd_nonneg _ Q0). split; [apply rnd_nonneg|]. apply rnd_le; [apply fl_1|]. apply Qle_shift_div_r; lra.
Qed.
Theorem fbbox_range a b : (0 <= fbbox_iou a b <= 1)%Q.
Proof. apply fiou_rows_range. Qed.

Lemma raw_sym a b : (raw_w a b == raw_w b a)%Q /\ (raw_h a b == raw_h b a)%Q.
Proof.
  unfold raw_w, raw_h. rewrite (Q.min_comm (b_xmax b)), (Q.max_comm (b_xmin b)), (Q.min_comm (b_ymax b)), (Q.max_comm (b_ymin b)).
  split; reflexivity.
Qed.
Lemma finter_wd a b a' b' : (raw_w a b == raw_w a' b')%Q -> (raw_h a b == raw_h a' b')%Q -> (finter a b == finter a' b')%Q.
Proof. intros Ew Eh. unfold finter. rewrite (rnd_comp _ _ Ew), (rnd_comp _ _ Eh). reflexivity. Qed.
Lemma funion_wd a b a' b' : (farea a + farea b == farea a' + farea b')%Q -> (finter a b == finter a' b')%Q -> (funion a b == funion a' b')%Q.
Proof. intros Ea Ei. unfold funion. apply srnd_wd. rewrite (srnd_wd _ _ Ea), Ei. reflexivity. Qed.
Theorem fbbox_sym a b : (fbbox_iou a b == fbbox_iou b a)%Q.
Proof.
  unfold fbbox_iou. rewrite !fiou_rows_eq. destruct (raw_sym (fbox a) (fbox b)) as [Ew Eh].
  assert (E := finter_wd _ _ _ _ Ew Eh). apply fdiv_where_wd; [exact E|]. apply funion_wd; [ring|exact E].
Qed.

(* ------------------------------------------------------------------ boxes apart *)
Lemma srnd_max x y : (srnd (Qmax x y) == Qmax (srnd x) (srnd y))%Q.
Proof.
  destruct (Qlt_le_dec x y) as [L|L].
  - rewrite (srnd_wd _ y (Q.max_r x y ltac:(lra))). symmetry. apply Q.max_r, srnd_mono. lra.
  - rewrite (srnd_wd _ x (Q.max_l x y L)). symmetry. apply Q.max_l, srnd_mono, L.
Qed.
Lemma srnd_min x y : (srnd (Qmin x y) == Qmin (srnd x) (srnd y))%Q.
Proof.
  destruct (Qlt_le_dec x y) as [L|L].
  - rewrite (srnd_wd _ x (Q.min_l x y ltac:(lra))). symmetry. apply Q.min_l, srnd_mono. lra.
  - rewrite (srnd_wd _ y (Q.min_r x y L)). symmetry. apply Q.min_r, srnd_mono, L.
Qed.
Lemma raw_fbox_w a b : (raw_w a b <= 0)%Q -> (raw_w (fbox a) (fbox b) <= 0)%Q.
Proof.
  intros H. unfold raw_w in *. cbn [b_xmin b_xmax fbox]. rewrite <- srnd_min, <- srnd_max.
  pose proof (srnd_mono (Qmin (b_xmax a) (b_xmax b)) (Qmax (b_xmin a) (b_xmin b)) ltac:(lra)). lra.
Qed.
Lemma raw_fbox_h a b : (raw_h a b <= 0)%Q -> (raw_h (fbox a) (fbox b) <= 0)%Q.
Proof.
  intros H. unfold raw_h in *. cbn [b_ymin b_ymax fbox]. rewrite <- srnd_min, <- srnd_max.
  pose proof (srnd_mono (Qmin (b_ymax a) (b_ymax b)) (Qmax (b_ymin a) (b_ymin b)) ltac:(lra)). lra.
Qed.
Lemma raw_mid p q r s : (0 < Qmin p q - Qmax r s)%Q -> exists x, (r < x /\ x < p /\ s < x /\ x < q)%Q.
Proof. intros H. apply seg_mid. rewrite Q.max_r; lra. Qed.
Theorem fbbox_disjoint a b : disjoint_interiors a b -> (fbbox_iou a b == 0)%Q.
Proof.
  intros D. unfold fbbox_iou. rewrite fiou_rows_eq. apply fdiv_where_0. unfold finter. apply rnd_zero_iff.
  destruct (Qlt_le_dec 0 (raw_w a b)) as [Lw|Lw].
  - destruct (Qlt_le_dec 0 (raw_h a b)) as [Lh|Lh].
    + exfalso. destruct (raw_mid _ _ _ _ Lw) as (x & X). destruct (raw_mid _ _ _ _ Lh) as (y & Y). apply (D x y). tauto.
    + rewrite (rnd_zero (raw_h _ _)) by (apply raw_fbox_h, Lh). lra.
  - rewrite (rnd_zero (raw_w _ _)) by (apply raw_fbox_w, Lw). lra.
Qed.

(* ------------------------------------------------------------------ relative errors *)
(* v is q up to k half ulps, relative to q *)
Definition bnd (k q v : Q) : Prop := (0 <= q /\ q * (1 - k * ulp1) <= v /\ v <= q * (1 + k * ulp1))%Q.
Definition kk (k : Q) : Prop := (0 <= k /\ k <= 100)%Q.
Lemma bnd_nonneg k q v : kk k -> bnd k q v -> (0 <= v)%Q.
Proof. intros [K0 K1] (Q0 & L & U). nra. Qed.
Lemma bnd_weak j k q v : (j <= k)%Q -> bnd j q v -> bnd k q v.
Proof. intros H (Q0 & L & U). split; [exact Q0|]. split; nra. Qed.
Lemma bnd_wd k q v q' v' : (q == q')%Q -> (v == v')%Q -> bnd k q v -> bnd k q' v'.
Proof. intros Eq Ev (Q0 & L & U). unfold bnd. rewrite <- Eq, <- Ev. auto. Qed.
Lemma bnd_mul j k x y x' y' : kk j -> kk k -> bnd j x x' -> bnd k y y' -> bnd (j + k + (1 # 1000)) (x * y) (x' * y').
Proof.
  intros J K Bx By. pose proof (bnd_nonneg _ _ _ J Bx) as X'. pose proof (bnd_nonneg _ _ _ K By) as Y'.
  destruct J as [J0 J1], K as [K0 K1], Bx as (X0 & XL & XU), By as (Y0 & YL & YU).
  assert (XY : (0 <= x * y)%Q) by nra. split; [exact XY|].
  assert (JK : (0 <= j * k)%Q) by nra. assert (JK' : (j * k <= 10000)%Q) by nra.
  split.
  - assert (A : (0 <= x * (1 - j * ulp1))%Q) by nra. assert (B : (0 <= y * (1 - k * ulp1))%Q) by nra.
    assert (C : (x * (1 - j * ulp1) * (y * (1 - k * ulp1)) <= x' * y')%Q) by nra.
    assert (D : (x * (1 - j * ulp1) * (y * (1 - k * ulp1)) == x * y * (1 - (j + k) * ulp1 + j * k * (ulp1 * ulp1)))%Q) by ring. rewrite D in C. nra.
  - assert (C : (x' * y' <= x * (1 + j * ulp1) * (y * (1 + k * ulp1)))%Q) by nra.
    assert (D : (x * (1 + j * ulp1) * (y * (1 + k * ulp1)) == x * y * (1 + (j + k) * ulp1 + j * k * (ulp1 * ulp1)))%Q) by ring. rewrite D in C.
    assert (G : (1 + (j + k) * ulp1 + j * k * (ulp1 * ulp1) <= 1 + (j + k + (1 # 1000)) * ulp1)%Q) by lra. nra.
Qed.
Lemma bnd_rnd k q v : kk k -> bnd k q v -> bnd (k + 1 + (1 # 1000)) q (rnd v).
Proof.
  intros K B. pose proof (bnd_nonneg _ _ _ K B) as V0. destruct (rnd_err v V0) as [EL EU]. destruct K as [K0 K1], B as (Q0 & L & U).
  split; [exact Q0|]. split.
  - apply Qle_trans with (q * (1 - k * ulp1) * (1 - ulp1))%Q; [|apply Qle_trans with (v * (1 - ulp1))%Q; [apply Qmult_le_compat_r; [exact L|lra]|exact EL]].
    assert (D : (q * (1 - k * ulp1) * (1 - ulp1) == q * (1 - (k + 1) * ulp1 + k * (ulp1 * ulp1)))%Q) by ring. rewrite D. nra.
  - apply Qle_trans with (q * (1 + k * ulp1) * (1 + ulp1))%Q; [apply Qle_trans with (v * (1 + ulp1))%Q; [exact EU|apply Qmult_le_compat_r; [exact U|lra]]|].
    assert (D : (q * (1 + k * ulp1) * (1 + ulp1) == q * (1 + (k + 1) * ulp1 + k * (ulp1 * ulp1)))%Q) by ring. rewrite D.
    assert (G : (1 + (k + 1) * ulp1 + k * (ulp1 * ulp1) <= 1 + (k + 1 + (1 # 1000)) * ulp1)%Q) by lra. nra.
Qed.
Lemma bnd_one x : (0 <= x)%Q -> bnd 1 x (rnd x).
Proof. intros H. destruct (rnd_err x H) as [L U]. split; [exact H|]. split; lra. Qed.
Lemma bnd_add k x y x' y' : bnd k x x' -> bnd k y y' -> bnd k (x + y) (x' + y').
Proof. intros (X0 & XL & XU) (Y0 & YL & YU). split; [lra|]. split; lra. Qed.
Lemma bnd_div j k x y x' y' : kk j -> kk k -> (0 < y)%Q -> bnd j x x' -> bnd k y y' -> bnd (j + k + (1 # 1000)) (x / y) (x' / y').
Proof.
  intros J K P Bx By. pose proof (bnd_nonneg _ _ _ J Bx) as X'.
  destruct J as [J0 J1], K as [K0 K1], Bx as (X0 & XL & XU), By as (Y0 & YL & YU).
  assert (P' : (0 < y')%Q) by nra. assert (Q0 : (0 <= x / y)%Q) by (apply Qle_shift_div_l; lra).
  assert (E : (x == x / y * y)%Q) by (field; lra). set (q := (x / y)%Q) in *.
  assert (JK : (0 <= j * k)%Q) by nra. assert (JK' : (j * k <= 10000)%Q) by nra. assert (KK : (0 <= k * k)%Q) by nra. assert (KK' : (k * k <= 10000)%Q) by nra.
  split; [exact Q0|]. split.
  - apply Qle_shift_div_l; [exact P'|]. apply Qle_trans with (x * (1 - j * ulp1))%Q; [|exact XL].
    assert (B : (0 <= 1 - (j + k + (1 # 1000)) * ulp1)%Q) by lra. assert (B' := Qmult_le_0_compat _ _ Q0 B).
    apply Qle_trans with (q * (1 - (j + k + (1 # 1000)) * ulp1) * (y * (1 + k * ulp1)))%Q; [rewrite (Qmult_comm _ y'), (Qmult_comm _ (y * _)); apply Qmult_le_compat_r; assumption|].
    assert (D : (q * (1 - (j + k + (1 # 1000)) * ulp1) * (y * (1 + k * ulp1)) == q * y * ((1 - (j + k + (1 # 1000)) * ulp1) * (1 + k * ulp1)))%Q) by ring.
    rewrite D, <- E. assert (G : ((1 - (j + k + (1 # 1000)) * ulp1) * (1 + k * ulp1) <= 1 - j * ulp1)%Q).
    { assert (S : ((1 - (j + k + (1 # 1000)) * ulp1) * (1 + k * ulp1) == 1 - (j + (1 # 1000)) * ulp1 - (j * k + k * k + (1 # 1000) * k) * (ulp1 * ulp1))%Q) by ring.
      rewrite S. lra. } nra.
  - apply Qle_shift_div_r; [exact P'|]. apply Qle_trans with (x * (1 + j * ulp1))%Q; [exact XU|].
    apply Qle_trans with (q * (1 + (j + k + (1 # 1000)) * ulp1) * (y * (1 - k * ulp1)))%Q.
    + assert (D : (q * (1 + (j + k + (1 # 1000)) * ulp1) * (y * (1 - k * ulp1)) == q * y * ((1 + (j + k + (1 # 1000)) * ulp1) * (1 - k * ulp1)))%Q) by ring.
      rewrite D, <- E. assert (G : (1 + j * ulp1 <= (1 + (j + k + (1 # 1000)) * ulp1) * (1 - k * ulp1))%Q).
      { assert (S : ((1 + (j + k + (1 # 1000)) * ulp1) * (1 - k * ulp1) == 1 + (j + (1 # 1000)) * ulp1 - (j * k + k * k + (1 # 1000) * k) * (ulp1 * ulp1))%Q) by ring.
        rewrite S. lra. } nra.
    + assert (B : (0 <= 1 + (j + k + (1 # 1000)) * ulp1)%Q) by lra. assert (B' := Qmult_le_0_compat _ _ Q0 B).
      rewrite (Qmult_comm _ y'), (Qmult_comm _ (y * _)). apply Qmult_le_compat_r; assumption.
Qed.
