(* Proofs about the IoU in binary64, continued: closeness, integer corners, masks, moves and
   scaling (C117, C118). *)
From Verif Require Import Prelude Counting CacheModel ClsModel DetModel DetSpec DetGeomProofs GeoModel GeoSpec GeoProofs
  FloatModel FloatProofs RndProofs FReportModel FReportSpec FReportProofs FReportMain FReportRoc FTextProofs FBoxModel FBoxSpec FBoxProofs.
From Coq Require Import String QArith Qabs Qminmax Lqa Lia.
Local Open Scope Z_scope.

(* ------------------------------------------------------------------ doubles *)
Definition box_eq (a b : box) : Prop :=
  (b_xmin a == b_xmin b /\ b_xmax a == b_xmax b /\ b_ymin a == b_ymin b /\ b_ymax a == b_ymax b)%Q.
Lemma fbox_double a : double_box a -> box_eq (fbox a) a.
Proof. intros (A & B & C & D). repeat split; apply srnd_double; assumption. Qed.
Lemma min_wd a b c d : (a == c)%Q -> (b == d)%Q -> (Qmin a b == Qmin c d)%Q.
Proof. intros E F. rewrite E, F. reflexivity. Qed.
Lemma max_wd a b c d : (a == c)%Q -> (b == d)%Q -> (Qmax a b == Qmax c d)%Q.
Proof. intros E F. rewrite E, F. reflexivity. Qed.
Lemma raw_wd a b a' b' : box_eq a a' -> box_eq b b' -> (raw_w a b == raw_w a' b')%Q /\ (raw_h a b == raw_h a' b')%Q.
Proof.
  intros (A & B & C & D) (A' & B' & C' & D'). unfold raw_w, raw_h.
  rewrite (min_wd _ _ _ _ B B'), (max_wd _ _ _ _ A A'), (min_wd _ _ _ _ D D'), (max_wd _ _ _ _ C C'). split; reflexivity.
Qed.
Lemma farea_wd a a' : (b_xmax a - b_xmin a == b_xmax a' - b_xmin a')%Q -> (b_ymax a - b_ymin a == b_ymax a' - b_ymin a')%Q -> (farea a == farea a')%Q.
Proof. intros E F. unfold farea. apply srnd_wd. rewrite (srnd_wd _ _ E), (srnd_wd _ _ F). reflexivity. Qed.
Lemma rows_wd a b a' b' : box_eq a a' -> box_eq b b' -> (fiou_rows a b == fiou_rows a' b')%Q.
Proof.
  intros Ea Eb. rewrite !fiou_rows_eq. destruct (raw_wd _ _ _ _ Ea Eb) as [Ew Eh]. assert (E := finter_wd _ _ _ _ Ew Eh).
  destruct Ea as (A & B & C & D), Eb as (A' & B' & C' & D').
  apply fdiv_where_wd; [exact E|]. apply funion_wd; [|exact E].
  rewrite (farea_wd a a'), (farea_wd b b'); [reflexivity|..]; lra.
Qed.
Lemma fbbox_rows a b : double_box a -> double_box b -> (fbbox_iou a b == fiou_rows a b)%Q.
Proof. intros Da Db. apply rows_wd; apply fbox_double; assumption. Qed.

(* ------------------------------------------------------------------ closeness *)
Lemma bnd_nn {k q v} : bnd k q v -> kk k -> (0 <= v)%Q.
Proof. intros B K. exact (bnd_nonneg k q v K B). Qed.
Lemma bnd_rd {k q v} : bnd k q v -> kk k -> bnd (k + 1 + (1 # 1000)) q (rnd v).
Proof. intros B K. exact (bnd_rnd k q v K B). Qed.
Lemma bnd_dv {j k x y x' y'} : bnd j x x' -> bnd k y y' -> kk j -> kk k -> (0 < y)%Q -> bnd (j + k + (1 # 1000)) (x / y) (x' / y').
Proof. intros B C J K P. exact (bnd_div j k x y x' y' J K P B C). Qed.
Lemma farea_bnd a : wf_box a -> bnd (3003 # 1000) (area a) (farea a).
Proof.
  intros [Wx Wy]. unfold farea. rewrite (srnd_nonneg (b_xmax a - _)), (srnd_nonneg (b_ymax a - _)) by lra.
  assert (K1 : kk 1) by (split; lra).
  assert (B := bnd_mul 1 1 _ _ _ _ K1 K1 (bnd_one (b_xmax a - b_xmin a) ltac:(lra)) (bnd_one (b_ymax a - b_ymin a) ltac:(lra))).
  assert (N := bnd_nn B ltac:(split; lra)). rewrite (srnd_nonneg _ N).
  apply (bnd_weak (1 + 1 + (1 # 1000) + 1 + (1 # 1000))); [lra|]. apply bnd_rnd; [split; lra|exact B].
Qed.
Lemma inter_raw a b c : is_intersection a b c -> (raw_w a b == b_xmax c - b_xmin c)%Q /\ (raw_h a b == b_ymax c - b_ymin c)%Q.
Proof. intros I. destruct (inter_sides a b c I) as (A & B & C & D). unfold raw_w, raw_h. rewrite A, B, C, D. split; reflexivity. Qed.
Lemma finter_bnd a b c : is_intersection a b c -> bnd (3003 # 1000) (area c) (finter a b).
Proof.
  intros I. destruct (inter_raw a b c I) as [Ew Eh]. assert (W := proj1 I).
  apply (bnd_wd _ (area c) (farea c)); [reflexivity| |apply farea_bnd, W].
  unfold farea, finter. destruct W as [Wx Wy]. rewrite (srnd_nonneg (b_xmax c - _)), (srnd_nonneg (b_ymax c - _)) by lra.
  rewrite (rnd_comp _ _ Ew), (rnd_comp _ _ Eh). rewrite srnd_nonneg; [reflexivity|].
  pose proof (rnd_nonneg (b_xmax c - b_xmin c)). pose proof (rnd_nonneg (b_ymax c - b_ymin c)). nra.
Qed.
Lemma inter_area_le a b c : is_intersection a b c -> (0 <= area c)%Q /\ (area c <= area a)%Q /\ (area c <= area b)%Q.
Proof.
  intros I. destruct (inter_raw a b c I) as [Ew Eh]. destruct (raw_le a b) as (W1 & W2 & H1 & H2). destruct I as [[Wx Wy] _].
  rewrite Ew in W1, W2. rewrite Eh in H1, H2. unfold area. repeat split; nra.
Qed.
Lemma inter_wf a b c : is_intersection a b c -> wf_box a /\ wf_box b.
Proof.
  intros I. destruct (inter_raw a b c I) as [Ew Eh]. destruct (raw_le a b) as (W1 & W2 & H1 & H2). destruct I as [[Wx Wy] _].
  rewrite Ew in W1, W2. rewrite Eh in H1, H2. repeat split; lra.
Qed.
Lemma funion_bnd a b c : is_intersection a b c -> bnd (12019 # 1000) (area a + area b - area c) (funion a b).
Proof.
  intros I. destruct (inter_wf a b c I) as [Wa Wb]. destruct (inter_area_le a b c I) as (C0 & Ca & Cb).
  assert (S := bnd_add _ _ _ _ _ (farea_bnd a Wa) (farea_bnd b Wb)). assert (N := bnd_nn S ltac:(split; lra)).
  assert (R := bnd_rd S ltac:(split; lra)). destruct (finter_bnd a b c I) as (_ & IL & IU). destruct R as (_ & RL & RU).
  set (U := (area a + area b - area c)%Q). assert (U0 : (area c <= U)%Q) by (unfold U; lra).
  assert (D : bnd (11015 # 1000) U (rnd (farea a + farea b) - finter a b)).
  { split; [lra|]. assert (E : (area a + area b == U + area c)%Q) by (unfold U; ring). split; nra. }
  unfold funion. rewrite (srnd_nonneg _ N). rewrite srnd_nonneg by exact (bnd_nn D ltac:(split; lra)).
  apply (bnd_weak ((11015 # 1000) + 1 + (1 # 1000))); [lra|]. apply bnd_rnd; [split; lra|exact D].
Qed.
Lemma nano_near : (nano <= epsQ * (1 + ulp1))%Q /\ (epsQ * (1 - ulp1) <= nano)%Q.
Proof. split; vm_compute; discriminate. Qed.
Theorem rows_close a b c : is_intersection a b c -> clear (area a + area b - area c) ->
  bnd 17 (area c / (area a + area b - area c)) (fiou_rows a b).
Proof.
  intros I K. assert (U := funion_bnd a b c I). assert (J := finter_bnd a b c I). set (u := (area a + area b - area c)%Q) in *.
  unfold clear in K. destruct nano_near as [N _]. unfold epsQ in N.
  assert (B : (nano <= funion a b)%Q) by (destruct U as (_ & L & _); lra).
  assert (V := bnd_dv J U ltac:(split; lra) ltac:(split; lra) ltac:(lra)).
  apply (bnd_wd _ (area c / u) (rnd (finter a b / funion a b))); [reflexivity| |].
  - rewrite fiou_rows_eq. unfold fdiv_where. destruct (Qlt_le_dec (funion a b) nano); [lra|].
    rewrite srnd_nonneg; [reflexivity|]. exact (bnd_nn V ltac:(split; lra)).
  - apply (bnd_weak ((3003 # 1000) + (12019 # 1000) + (1 # 1000) + 1 + (1 # 1000))); [lra|]. apply bnd_rnd; [split; lra|exact V].
Qed.
Theorem fbbox_close a b c : double_box a -> double_box b -> is_intersection a b c -> clear (area a + area b - area c) ->
  let q := (area c / (area a + area b - area c))%Q in (Qabs (fbbox_iou a b - q) <= 17 * half_ulp * q)%Q.
Proof.
  intros Da Db I K q. destruct (rows_close a b c I K) as (Q0 & L & U). fold q in Q0, L, U. rewrite (fbbox_rows a b Da Db).
  apply Qabs_Qle_condition. split; lra.
Qed.
Theorem fbbox_negligible a b c : double_box a -> double_box b -> is_intersection a b c -> negligible (area a + area b - area c) ->
  (fbbox_iou a b == 0)%Q.
Proof.
  intros Da Db I K. rewrite (fbbox_rows a b Da Db), fiou_rows_eq. destruct (funion_bnd a b c I) as (Q0 & L & U).
  destruct nano_near as [_ N]. unfold epsQ in N. unfold negligible in K. unfold fdiv_where.
  destruct (Qlt_le_dec (funion a b) nano); [reflexivity|]. lra.
Qed.
Lemma self_inter a : wf_box a -> is_intersection a a a.
Proof. intros W. split; [exact W|]. intros x y. tauto. Qed.
Theorem fbbox_self a : double_box a -> wf_box a -> clear (area a) -> (fbbox_iou a a == 1)%Q.
Proof.
  intros Da W K. rewrite (fbbox_rows a a Da Da), fiou_rows_eq.
  assert (Ea : (area a + area a - area a == area a)%Q) by ring.
  assert (E : (finter a a == farea a)%Q).
  { destruct (inter_raw a a a (self_inter a W)) as [Ew Eh]. unfold finter, farea. destruct W as [Wx Wy].
    rewrite (srnd_nonneg (b_xmax a - _)), (srnd_nonneg (b_ymax a - _)) by lra. rewrite (rnd_comp _ _ Ew), (rnd_comp _ _ Eh).
    rewrite srnd_nonneg; [reflexivity|]. pose proof (rnd_nonneg (b_xmax a - b_xmin a)). pose proof (rnd_nonneg (b_ymax a - b_ymin a)). nra. }
  assert (N := finter_nonneg a a). assert (F := finter_fl a a).
  assert (EU : (funion a a == finter a a)%Q).
  { assert (E2 : (srnd (farea a + farea a) == 2 * finter a a)%Q).
    { rewrite (srnd_wd _ (2 * finter a a)) by lra. rewrite srnd_nonneg by lra. apply rnd_id, fl_double, F. }
    unfold funion. rewrite (srnd_wd _ (finter a a)) by lra. rewrite srnd_nonneg by exact N. apply rnd_id, F. }
  assert (B : (nano <= funion a a)%Q).
  { destruct (funion_bnd a a a (self_inter a W)) as (_ & L & _). destruct nano_near as [M _]. unfold epsQ in M. unfold clear in K. lra. }
  pose proof nano_pos. unfold fdiv_where. destruct (Qlt_le_dec (funion a a) nano); [lra|].
  rewrite (srnd_wd _ 1); [rewrite srnd_nonneg by lra; apply rnd_1|]. rewrite EU. apply Qmult_inv_r. lra.
Qed.
Lemma overlap_inter a b : overlapping a b -> exists c, is_intersection a b c /\ (0 < area c)%Q.
Proof.
  intros (x & y & X1 & X2 & Y1 & Y2 & X3 & X4 & Y3 & Y4).
  destruct (area_dichotomy a b) as [(c & I & E)|(D & _)].
  - exists c. split; [exact I|]. destruct (inter_sides a b c I) as (A & B & C & D). unfold area.
    assert (P : (b_xmin c < x)%Q) by (rewrite A; destruct (Q.max_dec (b_xmin a) (b_xmin b)) as [M|M]; rewrite M; assumption).
    assert (P' : (x < b_xmax c)%Q) by (rewrite B; destruct (Q.min_dec (b_xmax a) (b_xmax b)) as [M|M]; rewrite M; assumption).
    assert (R : (b_ymin c < y)%Q) by (rewrite C; destruct (Q.max_dec (b_ymin a) (b_ymin b)) as [M|M]; rewrite M; assumption).
    assert (R' : (y < b_ymax c)%Q) by (rewrite D; destruct (Q.min_dec (b_ymax a) (b_ymax b)) as [M|M]; rewrite M; assumption).
    assert (0 < (b_xmax c - b_xmin c))%Q by lra. assert (0 < (b_ymax c - b_ymin c))%Q by lra. nra.
  - exfalso. apply (D x y). tauto.
Qed.
Theorem fbbox_overlap a b : double_box a -> double_box b -> overlapping a b -> clear (area a) -> (0 < fbbox_iou a b)%Q.
Proof.
  intros Da Db O K. destruct (overlap_inter a b O) as (c & I & P). destruct (inter_area_le a b c I) as (C0 & Ca & Cb).
  assert (K' : clear (area a + area b - area c)) by (unfold clear in *; lra).
  destruct (rows_close a b c I K') as (Q0 & L & _). rewrite (fbbox_rows a b Da Db). unfold clear in K'.
  assert (Qp : (0 < area c / (area a + area b - area c))%Q) by (apply Qlt_shift_div_l; lra). nra.
Qed.

(* ------------------------------------------------------------------ integer corners *)
Lemma srnd_int k : Z.abs k <= 2 ^ 53 -> (srnd (inject_Z k) == inject_Z k)%Q.
Proof. intros H. apply srnd_double. exists k, 0. split; [exact H|]. rewrite pow2_0. ring. Qed.
Lemma rnd_int k : 0 <= k <= 2 ^ 53 -> (rnd (inject_Z k) == inject_Z k)%Q.
Proof. intros H. apply rnd_id, fl_int, H. Qed.
Definition zpos (z : Z) : Z := Z.max 0 z.
Lemma rnd_zpos x k : (x == inject_Z k)%Q -> k <= 2 ^ 53 -> (rnd x == inject_Z (zpos k))%Q.
Proof.
  intros E H. rewrite (rnd_comp _ _ E). unfold zpos. destruct (Z.le_ge_cases k 0) as [L|L].
  - rewrite Z.max_l by exact L. rewrite rnd_zero; [reflexivity|]. change 0%Q with (inject_Z 0). rewrite <- Zle_Qle. exact L.
  - rewrite Z.max_r by exact L. apply rnd_int. lia.
Qed.
Lemma min_int x y p q : (x == inject_Z p)%Q -> (y == inject_Z q)%Q -> (Qmin x y == inject_Z (Z.min p q))%Q.
Proof.
  intros E F. rewrite (min_wd _ _ _ _ E F). destruct (Z.le_ge_cases p q) as [L|L].
  - rewrite Z.min_l by exact L. apply Q.min_l. rewrite <- Zle_Qle. exact L.
  - rewrite Z.min_r by exact L. apply Q.min_r. rewrite <- Zle_Qle. exact L.
Qed.
Lemma max_int x y p q : (x == inject_Z p)%Q -> (y == inject_Z q)%Q -> (Qmax x y == inject_Z (Z.max p q))%Q.
Proof.
  intros E F. rewrite (max_wd _ _ _ _ E F). destruct (Z.le_ge_cases p q) as [L|L].
  - rewrite Z.max_r by exact L. apply Q.max_r. rewrite <- Zle_Qle. exact L.
  - rewrite Z.max_l by exact L. apply Q.max_l. rewrite <- Zle_Qle. exact L.
Qed.
Lemma sub_int x y p q : (x == inject_Z p)%Q -> (y == inject_Z q)%Q -> (x - y == inject_Z (p - q))%Q.
Proof. intros E F. rewrite E, F. unfold Z.sub. rewrite inject_Z_plus, inject_Z_opp. reflexivity. Qed.
Lemma nano_int k : (inject_Z k < nano)%Q <-> k <= 0.
Proof.
  destruct nano_near as [_ N]. assert (N1 : (nano < 1)%Q) by (vm_compute; reflexivity). pose proof nano_pos. split; intros H1.
  - apply Z.lt_succ_r. rewrite Zlt_Qlt. change (inject_Z (Z.succ 0)) with 1%Q. lra.
  - assert (inject_Z k <= 0)%Q by (change 0%Q with (inject_Z 0); rewrite <- Zle_Qle; exact H1). lra.
Qed.
Lemma eps_int k : (inject_Z k < epsQ)%Q <-> k <= 0.
Proof.
  unfold epsQ. split; intros H1.
  - apply Z.lt_succ_r. rewrite Zlt_Qlt. change (inject_Z (Z.succ 0)) with 1%Q. lra.
  - assert (inject_Z k <= 0)%Q by (change 0%Q with (inject_Z 0); rewrite <- Zle_Qle; exact H1). lra.
Qed.
(* exact quotients of integers, rounded once *)
Lemma div_int i u I U : 0 <= i -> (I == inject_Z i)%Q -> (U == inject_Z u)%Q -> (fdiv_where I U == rnd (div_where I U))%Q.
Proof.
  intros Hi Ei Eu. unfold fdiv_where, div_where.
  destruct (Qlt_le_dec U nano) as [A|A], (Qlt_le_dec U epsQ) as [B|B].
  - reflexivity.
  - rewrite Eu in A, B. apply nano_int in A. apply eps_int in A. lra.
  - rewrite Eu in A, B. apply eps_int in B. apply nano_int in B. lra.
  - rewrite srnd_nonneg; [reflexivity|]. unfold epsQ in B. apply Qle_shift_div_l; [lra|].
    rewrite Ei. rewrite Qmult_0_l. change 0%Q with (inject_Z 0). rewrite <- Zle_Qle. exact Hi.
Qed.
Lemma int_area w h W H : (W == inject_Z w)%Q -> (H == inject_Z h)%Q -> Z.abs w <= 2 ^ 26 -> Z.abs h <= 2 ^ 26 ->
  (srnd (srnd W * srnd H) == inject_Z (w * h))%Q /\ (W * H == inject_Z (w * h))%Q /\ Z.abs (w * h) <= 2 ^ 52.
Proof.
  intros Ew Eh Hw Hh. assert (B : Z.abs (w * h) <= 2 ^ 52) by (rewrite Z.abs_mul; change (2 ^ 52) with (2 ^ 26 * 2 ^ 26); apply Z.mul_le_mono_nonneg; lia).
  split; [|split; [rewrite Ew, Eh, inject_Z_mult; reflexivity|exact B]].
  rewrite (srnd_wd _ (inject_Z (w * h))); [apply srnd_int; lia|]. rewrite (srnd_wd _ _ Ew), (srnd_wd _ _ Eh), !srnd_int by lia. rewrite inject_Z_mult. reflexivity.
Qed.
Lemma grid_double x : grid x -> double x.
Proof. intros (k & Hk & E). exists k, 0. split; [lia|]. rewrite E, pow2_0. ring. Qed.
Lemma grid_box_double a : grid_box a -> double_box a.
Proof. intros (A & B & C & D). repeat split; apply grid_double; assumption. Qed.
Lemma max_zpos x k : (x == inject_Z k)%Q -> (Qmax 0 x == inject_Z (zpos k))%Q.
Proof. intros E. exact (max_int 0 x 0 k (Qeq_refl _) E). Qed.
Lemma int_mult x y p q : (x == inject_Z p)%Q -> (y == inject_Z q)%Q -> (x * y == inject_Z (p * q))%Q.
Proof. intros E F. rewrite E, F, inject_Z_mult. reflexivity. Qed.
Lemma int_plus x y p q : (x == inject_Z p)%Q -> (y == inject_Z q)%Q -> (x + y == inject_Z (p + q))%Q.
Proof. intros E F. rewrite E, F, inject_Z_plus. reflexivity. Qed.
Lemma int_prod p q : 0 <= p <= 2 ^ 26 -> 0 <= q <= 2 ^ 26 -> 0 <= p * q <= 2 ^ 52.
Proof.
  intros Hp Hq. split; [apply Z.mul_nonneg_nonneg; lia|]. apply Z.le_trans with (2 ^ 26 * 2 ^ 26); [apply Z.mul_le_mono_nonneg; lia|].
  rewrite <- Z.pow_add_r by lia. apply Z.le_refl.
Qed.
Lemma srnd_is x k : (x == inject_Z k)%Q -> Z.abs k <= 2 ^ 53 -> (srnd x == inject_Z k)%Q.
Proof. intros E H. rewrite (srnd_wd _ _ E). apply srnd_int, H. Qed.
Lemma rnd_is x k : (x == inject_Z k)%Q -> 0 <= k <= 2 ^ 53 -> (rnd x == inject_Z k)%Q.
Proof. intros E H. rewrite (rnd_comp _ _ E). apply rnd_int, H. Qed.
Lemma int_bounds p q i : Z.abs p <= 2 ^ 52 -> Z.abs q <= 2 ^ 52 -> 0 <= i <= 2 ^ 52 -> i = 0 \/ (i <= p /\ i <= q) ->
  Z.abs (p + q) <= 2 ^ 53 /\ Z.abs (p + q - i) <= 2 ^ 53.
Proof. lia. Qed.
Lemma div_ratio i u I U : (I == inject_Z i)%Q -> (U == inject_Z u)%Q -> (div_where I U == ratio i (zpos u))%Q.
Proof.
  intros Ei Eu. unfold div_where, ratio, zpos. destruct (Qlt_le_dec U epsQ) as [B|B].
  - rewrite Eu in B. apply eps_int in B. rewrite Z.max_l by exact B. reflexivity.
  - destruct (Z.le_gt_cases u 0) as [L|L]; [apply eps_int in L; rewrite Eu in B; lra|].
    rewrite Z.max_r by lia. replace (0 <? u) with true by lia. rewrite Ei, Eu. reflexivity.
Qed.
Lemma rnd_ratio i u q v : 0 <= i <= 2 ^ 53 -> 0 <= u <= 2 ^ 53 -> (q == ratio i u)%Q -> (v == rnd q)%Q -> rounded q v.
Proof.
  intros Hi Hu E Ev. assert (R := ratio_rounded i u Hi Hu). apply (rounded_wd _ q _ (Qeq_sym _ _ E)) in R.
  assert (Ef : (v == fdivz i u)%Q).
  { rewrite Ev, (rnd_comp _ _ E). unfold ratio. destruct (Z.ltb_spec 0 u) as [B|B].
    - rewrite fdivz_small by lia. reflexivity.
    - unfold fdivz. replace (0 <? u) with false by lia. reflexivity. }
  unfold rounded in *. rewrite Ef. destruct R as (R1 & R2). split; [|exact R2].
  intros k e Hk. rewrite (Qabs_wd (v - q) (fdivz i u - q)) by (rewrite Ef; reflexivity). apply R1, Hk.
Qed.
Lemma grid_core a b w h p q : (raw_w a b == inject_Z w)%Q -> (raw_h a b == inject_Z h)%Q -> w <= 2 ^ 26 -> h <= 2 ^ 26 ->
  (farea a == inject_Z p)%Q -> (farea b == inject_Z q)%Q -> (area a == inject_Z p)%Q -> (area b == inject_Z q)%Q ->
  Z.abs p <= 2 ^ 52 -> Z.abs q <= 2 ^ 52 ->
  (fdiv_where (finter a b) (funion a b) == rnd (div_where (xw a b * yh a b) (area a + area b - xw a b * yh a b)))%Q /\
  exists i u, 0 <= i <= 2 ^ 53 /\ 0 <= u <= 2 ^ 53 /\ (div_where (xw a b * yh a b) (area a + area b - xw a b * yh a b) == ratio i u)%Q.
Proof.
  intros Rw Rh Hw Hh Fa Fb Xa Xb Bp Bq.
  assert (Bw : 0 <= zpos w <= 2 ^ 26) by (unfold zpos; lia). assert (Bh : 0 <= zpos h <= 2 ^ 26) by (unfold zpos; lia).
  assert (Bi := int_prod _ _ Bw Bh).
  assert (Xi : (xw a b * yh a b == inject_Z (zpos w * zpos h))%Q) by (apply int_mult; apply max_zpos; assumption).
  assert (Fi : (finter a b == inject_Z (zpos w * zpos h))%Q).
  { unfold finter. apply rnd_is; [|lia]. apply int_mult; apply rnd_zpos; assumption || lia. }
  generalize dependent (zpos w * zpos h). intros i Bi Xi Fi.
  assert (C : i = 0 \/ (i <= p /\ i <= q)).
  { destruct (finter_le a b) as [E|(_ & _ & L1 & L2)].
    - left. assert (i <= 0) by (rewrite Zle_Qle, <- Fi, E; apply Qle_refl). lia.
    - right. rewrite Fi, Fa in L1. rewrite Fi, Fb in L2. rewrite <- Zle_Qle in L1, L2. auto. }
  destruct (int_bounds p q i Bp Bq Bi C) as [Bs Bu].
  assert (Fs := srnd_is _ _ (int_plus _ _ _ _ Fa Fb) Bs).
  assert (Fu : (funion a b == inject_Z (p + q - i))%Q) by (unfold funion; exact (srnd_is _ _ (sub_int _ _ _ _ Fs Fi) Bu)).
  assert (Xu := sub_int _ _ _ _ (int_plus _ _ _ _ Xa Xb) Xi).
  split; [|exists i, (zpos (p + q - i)); split; [lia|split; [unfold zpos; lia|exact (div_ratio i _ _ _ Xi Xu)]]].
  apply Qeq_trans with (fdiv_where (xw a b * yh a b) (area a + area b - xw a b * yh a b)).
  { apply fdiv_where_wd; [rewrite Fi, Xi|rewrite Fu, Xu]; reflexivity. }
  exact (div_int i _ _ _ (proj1 Bi) Xi Xu).
Qed.
Lemma grid_value a b : grid_box a -> grid_box b -> (fbbox_iou a b == rnd (bbox_iou a b))%Q /\
  exists i u, 0 <= i <= 2 ^ 53 /\ 0 <= u <= 2 ^ 53 /\ (bbox_iou a b == ratio i u)%Q.
Proof.
  intros Ga Gb. rewrite (fbbox_rows a b (grid_box_double a Ga) (grid_box_double b Gb)), fiou_rows_eq, bbox_iou_eq.
  destruct Ga as ((x0 & Hx0 & Ex0) & (x1 & Hx1 & Ex1) & (y0 & Hy0 & Ey0) & (y1 & Hy1 & Ey1)).
  destruct Gb as ((u0 & Hu0 & Eu0) & (u1 & Hu1 & Eu1) & (v0 & Hv0 & Ev0) & (v1 & Hv1 & Ev1)).
  destruct (int_area (x1 - x0) (y1 - y0) _ _ (sub_int _ _ _ _ Ex1 Ex0) (sub_int _ _ _ _ Ey1 Ey0) ltac:(lia) ltac:(lia)) as (Fa & Xa & Ba).
  destruct (int_area (u1 - u0) (v1 - v0) _ _ (sub_int _ _ _ _ Eu1 Eu0) (sub_int _ _ _ _ Ev1 Ev0) ltac:(lia) ltac:(lia)) as (Fb & Xb & Bb).
  apply (grid_core a b (Z.min x1 u1 - Z.max x0 u0) (Z.min y1 v1 - Z.max y0 v0) ((x1 - x0) * (y1 - y0)) ((u1 - u0) * (v1 - v0)));
    try assumption; try lia; (apply sub_int; [apply min_int|apply max_int]; assumption).
Qed.
Lemma fbbox_grid a b : grid_box a -> grid_box b -> (fbbox_iou a b == rnd (bbox_iou a b))%Q.
Proof. intros Ga Gb. exact (proj1 (grid_value a b Ga Gb)). Qed.
Theorem fbbox_rounded a b : grid_box a -> grid_box b -> rounded (bbox_iou a b) (fbbox_iou a b).
Proof. intros Ga Gb. destruct (grid_value a b Ga Gb) as (E & i & u & Hi & Hu & R). exact (rnd_ratio i u _ _ Hi Hu R E). Qed.

(* ------------------------------------------------------------------ masks *)
Theorem fmask_once a b : mask_fits a -> mask_fits b -> (fmask_iou a b == rnd (mask_iou a b))%Q.
Proof.
  intros Fa Fb. unfold fmask_iou, fbitmask_iou, mask_iou, bitmask_iou. unfold mask_fits in *.
  pose proof (countb_le_length (fun x => x) (gm_bits a)) as La. pose proof (countb_le_length (fun x => x) (gm_bits b)) as Lb.
  pose proof (countb_le_length (fun p => fst p && snd p) (combine (gm_bits a) (gm_bits b))) as Li. rewrite combine_length in Li.
  set (l := countb _ (gm_bits a)) in *. set (r := countb _ (gm_bits b)) in *. set (i := countb _ (combine _ _)) in *.
  assert (Eu : (rnd (qnat (l + r - i)) == qnat (l + r - i))%Q) by (apply rnd_int; lia).
  assert (Ei : (rnd (qnat i) == qnat i)%Q) by (apply rnd_int; lia).
  rewrite <- (div_int (Z.of_nat i) (Z.of_nat (l + r - i)) (qnat i) (qnat (l + r - i))) by (lia || reflexivity).
  unfold fdiv_where. destruct (Qlt_le_dec (rnd (qnat (l + r - i))) nano), (Qlt_le_dec (qnat (l + r - i)) nano); try lra.
  pose proof nano_pos. rewrite srnd_nonneg.
  - rewrite (rnd_comp _ (qnat i / qnat (l + r - i))); [reflexivity|]. rewrite Ei, Eu. reflexivity.
  - apply Qle_shift_div_l; [lra|]. rewrite Qmult_0_l. change 0%Q with (inject_Z 0). unfold qnat. rewrite <- Zle_Qle. lia.
Qed.
Theorem fmask_rounded a b : mask_fits a -> mask_fits b -> rounded (mask_iou a b) (fmask_iou a b).
Proof.
  intros Fa Fb. assert (E := fmask_once a b Fa Fb). unfold mask_fits in *. unfold mask_iou, bitmask_iou in *.
  pose proof (countb_le_length (fun x => x) (gm_bits a)) as La. pose proof (countb_le_length (fun x => x) (gm_bits b)) as Lb.
  pose proof (countb_le_length (fun p => fst p && snd p) (combine (gm_bits a) (gm_bits b))) as Li. rewrite combine_length in Li.
  set (l := countb _ (gm_bits a)) in *. set (r := countb _ (gm_bits b)) in *. set (i := countb _ (combine _ _)) in *.
  apply (rnd_ratio (Z.of_nat i) (zpos (Z.of_nat (l + r - i)))); [lia|unfold zpos; lia| |exact E]. apply div_ratio; reflexivity.
Qed.
Theorem drawn_same h w a b ma mb : Z.of_nat h <= 2 ^ 25 -> Z.of_nat w <= 2 ^ 25 -> drawn h w a ma -> drawn h w b mb ->
  (fbbox_iou a b == fmask_iou ma mb)%Q.
Proof.
  intros Hh Hw Da Db.
  assert (G : forall c m, drawn h w c m -> grid_box c /\ mask_fits m).
  { intros c m (_ & Len & x0 & x1 & y0 & y1 & X & Y & (E1 & E2 & E3 & E4) & _). split.
    - repeat split; [exists (Z.of_nat x0)|exists (Z.of_nat x1)|exists (Z.of_nat y0)|exists (Z.of_nat y1)]; (split; [lia|assumption]).
    - unfold mask_fits. rewrite Len, Nat2Z.inj_mul. change (2 ^ 52) with (2 ^ 26 * 2 ^ 26). apply Z.mul_le_mono_nonneg; lia. }
  destruct (G a ma Da) as [Ga Fa], (G b mb Db) as [Gb Fb].
  rewrite (fbbox_grid a b Ga Gb), (fmask_once ma mb Fa Fb), (rnd_comp _ _ (drawn_iou h w a b ma mb Da Db)). reflexivity.
Qed.

(* ------------------------------------------------------------------ moves *)
Lemma rows_same a b a' b' : (raw_w a' b' == raw_w a b)%Q -> (raw_h a' b' == raw_h a b)%Q ->
  (b_xmax a' - b_xmin a' == b_xmax a - b_xmin a)%Q -> (b_ymax a' - b_ymin a' == b_ymax a - b_ymin a)%Q ->
  (b_xmax b' - b_xmin b' == b_xmax b - b_xmin b)%Q -> (b_ymax b' - b_ymin b' == b_ymax b - b_ymin b)%Q ->
  (fiou_rows a' b' == fiou_rows a b)%Q.
Proof.
  intros Ew Eh A1 A2 B1 B2. rewrite !fiou_rows_eq. assert (E := finter_wd _ _ _ _ Ew Eh). apply fdiv_where_wd; [exact E|].
  apply funion_wd; [|exact E]. rewrite (farea_wd a' a A1 A2), (farea_wd b' b B1 B2). reflexivity.
Qed.
Lemma raw_shift p q r s t : (Qmin (p + t) (q + t) - Qmax (r + t) (s + t) == Qmin p q - Qmax r s)%Q.
Proof.
  assert (M : (Qmin (p + t) (q + t) == Qmin p q + t)%Q).
  { destruct (Qlt_le_dec p q); [rewrite (Q.min_l p q), (Q.min_l (p + t) (q + t)) by lra|rewrite (Q.min_r p q), (Q.min_r (p + t) (q + t)) by lra]; reflexivity. }
  assert (M' : (Qmax (r + t) (s + t) == Qmax r s + t)%Q).
  { destruct (Qlt_le_dec r s); [rewrite (Q.max_r r s), (Q.max_r (r + t) (s + t)) by lra|rewrite (Q.max_l r s), (Q.max_l (r + t) (s + t)) by lra]; reflexivity. }
  rewrite M, M'. ring.
Qed.
Lemma raw_mirror p q r s t : (Qmin (t - r) (t - s) - Qmax (t - p) (t - q) == Qmin p q - Qmax r s)%Q.
Proof.
  assert (M : (Qmin (t - r) (t - s) == t - Qmax r s)%Q).
  { destruct (Qlt_le_dec r s); [rewrite (Q.max_r r s), (Q.min_r (t - r) (t - s)) by lra|rewrite (Q.max_l r s), (Q.min_l (t - r) (t - s)) by lra]; reflexivity. }
  assert (M' : (Qmax (t - p) (t - q) == t - Qmin p q)%Q).
  { destruct (Qlt_le_dec p q); [rewrite (Q.min_l p q), (Q.max_l (t - p) (t - q)) by lra|rewrite (Q.min_r p q), (Q.max_r (t - p) (t - q)) by lra]; reflexivity. }
  rewrite M, M'. ring.
Qed.
Definition flip (b : box) : box := MkBox (b_ymin b) (b_ymax b) (b_xmin b) (b_xmax b).
Lemma rows_move f : move f -> forall a b, (fiou_rows (f a) (f b) == fiou_rows a b)%Q.
Proof.
  induction 1; intros a b.
  - apply rows_same; unfold raw_w, raw_h; cbn [b_xmin b_xmax b_ymin b_ymax]; try apply raw_shift; ring.
  - apply rows_same; unfold raw_w, raw_h; cbn [b_xmin b_xmax b_ymin b_ymax]; try apply raw_mirror; ring.
  - apply rows_same; unfold raw_w, raw_h; cbn [b_xmin b_xmax b_ymin b_ymax]; try apply raw_mirror; ring.
  - change (fiou_rows (flip a) (flip b) == fiou_rows a b)%Q. rewrite !fiou_rows_eq.
    assert (E : (finter (flip a) (flip b) == finter a b)%Q).
    { unfold finter. rewrite (rnd_comp _ (rnd (raw_w a b) * rnd (raw_h a b))); [reflexivity|]. apply Qmult_comm. }
    assert (A : forall c, (farea (flip c) == farea c)%Q) by (intros c; unfold farea; apply srnd_wd, Qmult_comm).
    apply fdiv_where_wd; [exact E|]. apply funion_wd; [rewrite !A; reflexivity|exact E].
  - rewrite IHmove2, IHmove1. reflexivity.
Qed.
Theorem fbbox_move f : move f -> forall a b, double_box a -> double_box b -> double_box (f a) -> double_box (f b) ->
  (fbbox_iou (f a) (f b) == fbbox_iou a b)%Q.
Proof. intros M a b Da Db Da' Db'. rewrite !fbbox_rows by assumption. apply rows_move, M. Qed.

(* ------------------------------------------------------------------ powers of two *)
Lemma rnd_half x : (rnd (x / 2) == rnd x / 2)%Q.
Proof. assert (E := rnd_double (x / 2)). rewrite (rnd_comp (2 * (x / 2)) x) in E by field. rewrite E. field. Qed.
Lemma pow2_succ e : (pow2 (Z.succ e) == 2 * pow2 e)%Q.
Proof. unfold Z.succ. rewrite (pow2_add e 1) by lia. change (inject_Z (2 ^ 1)) with 2%Q. ring. Qed.
Lemma rnd_pow2 e x : (rnd (pow2 e * x) == pow2 e * rnd x)%Q.
Proof.
  revert x. induction e as [|e IH|e IH] using Z.peano_ind; intros x.
  - rewrite (rnd_comp (pow2 0 * x) x) by (rewrite pow2_0; ring). rewrite pow2_0. ring.
  - rewrite (rnd_comp (pow2 (Z.succ e) * x) (2 * (pow2 e * x))) by (rewrite pow2_succ; ring). rewrite rnd_double, IH, pow2_succ. ring.
  - assert (E := pow2_succ (Z.pred e)). rewrite Z.succ_pred in E.
    rewrite (rnd_comp (pow2 (Z.pred e) * x) ((pow2 e * x) / 2)) by (rewrite E; field). rewrite rnd_half, IH, E. field.
Qed.
Lemma srnd_pow2 e x : (srnd (pow2 e * x) == pow2 e * srnd x)%Q.
Proof.
  pose proof (pow2_pos e). destruct (Qlt_le_dec x 0) as [L|L].
  - rewrite (srnd_neg (pow2 e * x)) by nra. rewrite (srnd_neg x) by lra. rewrite (rnd_comp (- (pow2 e * x)) (pow2 e * - x)) by ring. rewrite rnd_pow2. ring.
  - rewrite (srnd_nonneg (pow2 e * x)) by nra. rewrite (srnd_nonneg x L). apply rnd_pow2.
Qed.
Lemma raw_scale c p q r s : (0 < c)%Q -> (Qmin (c * p) (c * q) - Qmax (c * r) (c * s) == c * (Qmin p q - Qmax r s))%Q.
Proof.
  intros C.
  assert (M : (Qmin (c * p) (c * q) == c * Qmin p q)%Q).
  { destruct (Qlt_le_dec p q); [rewrite (Q.min_l p q), (Q.min_l (c * p) (c * q)) by nra|rewrite (Q.min_r p q), (Q.min_r (c * p) (c * q)) by nra]; reflexivity. }
  assert (M' : (Qmax (c * r) (c * s) == c * Qmax r s)%Q).
  { destruct (Qlt_le_dec r s); [rewrite (Q.max_r r s), (Q.max_r (c * r) (c * s)) by nra|rewrite (Q.max_l r s), (Q.max_l (c * r) (c * s)) by nra]; reflexivity. }
  rewrite M, M'. ring.
Qed.
Lemma finter_scale e a b : (finter (scale (pow2 e) a) (scale (pow2 e) b) == pow2 e * (pow2 e * finter a b))%Q.
Proof.
  unfold finter. rewrite <- !rnd_pow2. apply Qeq_trans with (rnd (pow2 e * (pow2 e * (rnd (raw_w a b) * rnd (raw_h a b))))); [|reflexivity].
  rewrite (rnd_comp _ (pow2 e * (pow2 e * (rnd (raw_w a b) * rnd (raw_h a b))))); [reflexivity|].
  assert (Ew : (raw_w (scale (pow2 e) a) (scale (pow2 e) b) == pow2 e * raw_w a b)%Q) by apply raw_scale, pow2_pos.
  assert (Eh : (raw_h (scale (pow2 e) a) (scale (pow2 e) b) == pow2 e * raw_h a b)%Q) by apply raw_scale, pow2_pos.
  rewrite (rnd_comp _ _ Ew), (rnd_comp _ _ Eh), !rnd_pow2. ring.
Qed.
Lemma farea_scale e a : (farea (scale (pow2 e) a) == pow2 e * (pow2 e * farea a))%Q.
Proof.
  unfold farea, scale. cbn [b_xmin b_xmax b_ymin b_ymax]. rewrite <- !srnd_pow2. apply srnd_wd.
  rewrite (srnd_wd (pow2 e * b_xmax a - pow2 e * b_xmin a) (pow2 e * (b_xmax a - b_xmin a))) by ring.
  rewrite (srnd_wd (pow2 e * b_ymax a - pow2 e * b_ymin a) (pow2 e * (b_ymax a - b_ymin a))) by ring. rewrite !srnd_pow2. ring.
Qed.
Lemma scale_plus p x y : (p * (p * x) + p * (p * y) == p * (p * (x + y)))%Q.
Proof. ring. Qed.
Lemma scale_minus p x y : (p * (p * (x - y)) == p * (p * x) - p * (p * y))%Q.
Proof. ring. Qed.
Lemma funion_scale e a b : (funion (scale (pow2 e) a) (scale (pow2 e) b) == pow2 e * (pow2 e * funion a b))%Q.
Proof.
  unfold funion. rewrite <- !srnd_pow2. apply srnd_wd. rewrite finter_scale.
  rewrite (srnd_wd _ (pow2 e * (pow2 e * (farea a + farea b)))) by (rewrite !farea_scale; apply scale_plus). rewrite !srnd_pow2. symmetry. apply scale_minus.
Qed.
Lemma pow2_sum a b : (pow2 (a + b) == pow2 a * pow2 b)%Q.
Proof.
  induction b as [|b IH|b IH] using Z.peano_ind.
  - rewrite Z.add_0_r, pow2_0. ring.
  - rewrite Z.add_succ_r, !pow2_succ, IH. ring.
  - assert (E := pow2_succ (Z.pred b)). rewrite Z.succ_pred in E. assert (F := pow2_succ (a + Z.pred b)).
    replace (Z.succ (a + Z.pred b)) with (a + b) in F by lia. rewrite E, F in IH. lra.
Qed.
Lemma double_scale e x : double x -> double (pow2 e * x).
Proof. intros (k & f & Hk & E). exists k, (e + f). split; [exact Hk|]. rewrite E, pow2_sum. ring. Qed.
Lemma area_scale c a : (area (scale c a) == c * c * area a)%Q.
Proof. unfold area, scale. cbn [b_xmin b_xmax b_ymin b_ymax]. ring. Qed.
Lemma union_clear a b : wf_box a -> wf_box b -> clear (area a) -> (finter a b == 0 \/ nano <= funion a b)%Q.
Proof.
  intros Wa Wb K. destruct (area_dichotomy a b) as [(c & I & E)|(D & E)].
  - right. destruct (funion_bnd a b c I) as (Q0 & L & _). destruct (inter_area_le a b c I) as (C0 & Ca & Cb).
    destruct nano_near as [N _]. unfold epsQ in N. unfold clear in K. lra.
  - left. destruct (finter_le a b) as [F|(Lw & Lh & _)]; [exact F|exfalso].
    assert (xw a b == raw_w a b)%Q by (apply Q.max_r; fold (raw_w a b); lra). assert (yh a b == raw_h a b)%Q by (apply Q.max_r; fold (raw_h a b); lra). nra.
Qed.
Lemma cancel_square p i u : (0 < p)%Q -> (0 < u)%Q -> (p * (p * i) / (p * (p * u)) == i / u)%Q.
Proof. intros Hp Hu. field. split; lra. Qed.
Theorem fbbox_pow2 e a b : double_box a -> double_box b -> wf_box a -> wf_box b -> clear (area a) -> clear (pow2 e * pow2 e * area a) ->
  (fbbox_iou (scale (pow2 e) a) (scale (pow2 e) b) == fbbox_iou a b)%Q.
Proof.
  intros Da Db Wa Wb Ka Ka'. assert (P := pow2_pos e).
  assert (S : forall c, double_box c -> double_box (scale (pow2 e) c)) by (intros c (A & B & C & D); repeat split; apply double_scale; assumption).
  assert (W : forall c, wf_box c -> wf_box (scale (pow2 e) c)) by (intros c [A B]; split; cbn; nra).
  rewrite !fbbox_rows by auto. rewrite !fiou_rows_eq.
  assert (I := finter_scale e a b). assert (U := funion_scale e a b).
  destruct (union_clear a b Wa Wb Ka) as [E|E].
  { rewrite !fdiv_where_0; [reflexivity|exact E|rewrite I, E; ring]. }
  destruct (union_clear (scale (pow2 e) a) (scale (pow2 e) b) (W a Wa) (W b Wb)) as [E'|E'].
  { unfold clear in *. rewrite area_scale. exact Ka'. }
  { assert (E0 : (finter a b == 0)%Q) by (rewrite I in E'; assert (N := finter_nonneg a b); destruct (Qlt_le_dec 0 (finter a b)); [exfalso; assert (0 < pow2 e * finter a b)%Q by nra; nra|lra]).
    rewrite !fdiv_where_0; [reflexivity|exact E0|exact E']. }
  pose proof nano_pos. unfold fdiv_where. destruct (Qlt_le_dec (funion _ _) nano), (Qlt_le_dec (funion a b) nano); try lra.
  apply srnd_wd. rewrite I, U. apply cancel_square; lra.
Qed.

(* ------------------------------------------------------------------ tables *)
Lemma round_twice unit store : rounding unit store -> rounding unit (fun q => store (rnd q)).
Proof.
  intros R. assert (M := R). destruct M as (Mo & M0 & M1). split; [|split].
  - intros a b H. apply Mo, rnd_mono, H.
  - exact M0.
  - rewrite <- M1. apply (rounding_eq unit store R), rnd_1.
Qed.
Theorem fboxes_input unit store ds : rounding unit store -> Forall plain_image ds -> det_input unit (fboxes_data store ds).
Proof. intros R H. apply (with_ious_input unit store fbbox_iou ds R H). intros. apply fbbox_range. Qed.
Lemma like_refl {G} (R : G -> G -> Prop) d : (forall s, In s (gd_gts d ++ gd_pds d) -> R (sh_shape s) (sh_shape s)) -> like_image R d d.
Proof.
  intros H. split; [reflexivity|].
  assert (X : forall l, (forall s, In s l -> R (sh_shape s) (sh_shape s)) -> Forall2 (like_shape R) l l).
  { induction l as [|s t IH]; intros K; constructor; [split; [reflexivity|apply K; left; reflexivity]|apply IH; intros s' I; apply K; right; exact I]. }
  split; apply X; intros s I; apply H, in_or_app; auto.
Qed.
Lemma store_rnd unit store x y : rounding unit store -> (x == rnd y)%Q -> store x = store (rnd y).
Proof. intros R E. exact (rounding_eq unit store R _ _ E). Qed.
Theorem fboxes_grid unit store ds : rounding unit store -> Forall grid_image ds ->
  fboxes_data store ds = boxes_data (fun q => store (rnd q)) ds.
Proof.
  intros R H. unfold fboxes_data, boxes_data. apply map_ext_in. intros d Hd. rewrite Forall_forall in H. specialize (H d Hd).
  unfold with_ious. f_equal. assert (E : map store (iou_list fbbox_iou (map sh_shape (gd_gts d)) (map sh_shape (gd_pds d))) =
    map (fun q => store (rnd q)) (iou_list bbox_iou (map sh_shape (gd_gts d)) (map sh_shape (gd_pds d)))); [|rewrite E; reflexivity].
  unfold iou_list. rewrite !concat_map, !map_map. f_equal. apply map_ext_in. intros p Hp. rewrite !map_map. apply map_ext_in. intros g Hg.
  apply (store_rnd unit store _ _ R), fbbox_grid; apply H, in_or_app; auto.
Qed.
Theorem fmasks_once unit store ds : rounding unit store -> (forall d s, In d ds -> In s (gd_gts d ++ gd_pds d) -> mask_fits (sh_shape s)) ->
  fmasks_data store ds = masks_data (fun q => store (rnd q)) ds.
Proof.
  intros R H. unfold fmasks_data, masks_data. destruct (forallb stackable ds); [|reflexivity]. f_equal. apply map_ext_in. intros d Hd.
  unfold with_ious. f_equal. assert (E : map store (iou_list fmask_iou (map sh_shape (gd_gts d)) (map sh_shape (gd_pds d))) =
    map (fun q => store (rnd q)) (iou_list mask_iou (map sh_shape (gd_gts d)) (map sh_shape (gd_pds d)))); [|rewrite E; reflexivity].
  unfold iou_list. rewrite !concat_map, !map_map. f_equal. apply map_ext_in. intros p Hp. rewrite !map_map. apply map_ext_in. intros g Hg.
  apply (store_rnd unit store _ _ R), fmask_once; apply (H d _ Hd), in_or_app; auto.
Qed.
Theorem grid_threshold a b t : grid_box a -> grid_box b -> double t -> (t <= bbox_iou a b)%Q -> (t <= fbbox_iou a b)%Q.
Proof.
  intros Ga Gb D H. rewrite (fbbox_grid a b Ga Gb). destruct (Qlt_le_dec t 0) as [L|L].
  - pose proof (rnd_nonneg (bbox_iou a b)). lra.
  - apply rnd_ge; [apply double_fl; assumption|exact H].
Qed.
Theorem fbbox_threshold a b c t : double_box a -> double_box b -> is_intersection a b c -> clear (area a + area b - area c) ->
  let q := (area c / (area a + area b - area c))%Q in
  ((t <= q * (1 - 17 * half_ulp))%Q -> (t <= fbbox_iou a b)%Q) /\ ((q * (1 + 17 * half_ulp) < t)%Q -> (fbbox_iou a b < t)%Q).
Proof.
  intros Da Db I K q. destruct (rows_close a b c I K) as (Q0 & L & U). fold q in Q0, L, U. rewrite (fbbox_rows a b Da Db). split; lra.
Qed.
Lemma Qmult_div_cancel x u : (0 < u)%Q -> (x / u * u == x)%Q.
Proof. intros P. field. lra. Qed.
Theorem fbbox_one a b : double_box a -> double_box b -> clear (area a) -> (fbbox_iou a b == 1)%Q ->
  exists c, is_intersection a b c /\ ((area a + area b - area c) * (1 - 17 * half_ulp) <= area c)%Q.
Proof.
  intros Da Db K H. destruct (area_dichotomy a b) as [(c & I & _)|(D & _)].
  - exists c. split; [exact I|]. destruct (inter_area_le a b c I) as (C0 & Ca & Cb). unfold clear in K.
    assert (K' : clear (area a + area b - area c)) by (unfold clear; lra). destruct (rows_close a b c I K') as (Q0 & L & U).
    rewrite (fbbox_rows a b Da Db) in H. rewrite H in U. set (u := (area a + area b - area c)%Q) in *.
    assert (P : (0 < u)%Q) by (unfold u; lra). assert (E : (area c == area c / u * u)%Q) by (symmetry; apply Qmult_div_cancel; exact P).
    rewrite E. rewrite (Qmult_comm u). apply Qmult_le_compat_r; lra.
  - rewrite (fbbox_disjoint a b D) in H. lra.
Qed.
