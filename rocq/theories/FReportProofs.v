(* Proofs about metric values as binary64 numbers. *)
From Verif Require Import Prelude Counting CacheModel ClsModel RocModel FlowModel ClsFilterModel ClsReportModel
  DetModel DetFlowModel DetReportModel FloatModel FloatProofs RndProofs FReportModel FReportSpec.
From Verif Require SegModel.
From Coq Require Import Lia QArith Qabs Qminmax Lqa Permutation.
Local Open Scope Z_scope.

Lemma rnd_int k : 0 <= k <= 2 ^ 53 -> (rnd (inject_Z k) == inject_Z k)%Q.
Proof. intros H. apply rnd_id, fl_int, H. Qed.
Lemma inject_nonneg k : 0 <= k -> (0 <= inject_Z k)%Q.
Proof. intros H. change 0%Q with (inject_Z 0). rewrite <- Zle_Qle. exact H. Qed.
Lemma rnd_div_wd a a' b b' : (a == a')%Q -> (b == b')%Q -> rnd (a / b) = rnd (a' / b').
Proof. intros E F. apply rnd_comp. rewrite E, F. reflexivity. Qed.

(* counts up to 2^53 are converted exactly *)
Lemma fdivz_small a b : 0 <= a <= 2 ^ 53 -> 0 < b <= 2 ^ 53 -> fdivz a b = rnd (inject_Z a / inject_Z b).
Proof.
  intros Ha Hb. unfold fdivz. replace (0 <? b) with true by lia. apply rnd_div_wd; apply rnd_int; lia.
Qed.
Lemma fdivz_fl a b : fl (fdivz a b).
Proof. unfold fdivz. destruct (0 <? b); [apply rnd_fl|exact fl_0]. Qed.
Lemma fdivz_zero a : fdivz a 0 = 0%Q.
Proof. reflexivity. Qed.
Lemma div_nonneg a b : 0 <= a -> 0 <= b -> (0 <= inject_Z a / inject_Z b)%Q.
Proof.
  intros Ha Hb. unfold Qdiv. apply Qmult_le_0_compat; [apply inject_nonneg; exact Ha|]. apply Qinv_le_0_compat, inject_nonneg, Hb.
Qed.
(* in [0, 1] for all counts, whatever their size *)
Lemma fdivz_range a b : 0 <= a <= b -> (0 <= fdivz a b /\ fdivz a b <= 1)%Q.
Proof.
  intros H. split; [apply fl_nonneg, fdivz_fl|]. unfold fdivz. destruct (Z.ltb_spec 0 b) as [B|B]; [|lra].
  apply rnd_le; [exact fl_1|]. apply Qle_shift_div_r; [apply rnd_pos, inject_pos; exact B|]. rewrite Qmult_1_l.
  apply rnd_mono. rewrite <- Zle_Qle. lia.
Qed.
Lemma abs_err x v : (0 <= x)%Q -> (x * (1 - ulp1) <= v /\ v <= x * (1 + ulp1))%Q -> (Qabs (v - x) <= ulp1 * x)%Q.
Proof. intros H [A B]. apply Qabs_case; intros; lra. Qed.

Lemma fdivz_ratio a b : 0 <= a <= b -> b <= 2 ^ 53 -> reports_ratio a b (fdivz a b).
Proof.
  intros H Hb. destruct (fdivz_range a b H) as [R0 R1]. split; [exact R0|]. split; [exact R1|]. split; [intros ->; reflexivity|].
  intros B. pose proof (inject_pos b B) as PB. rewrite fdivz_small by lia. pose proof (div_nonneg a b ltac:(lia) ltac:(lia)) as D0.
  split; [|split].
  - rewrite rnd_zero_iff. split; intros G.
    + destruct (Z.eq_dec a 0) as [E|E]; [exact E|]. exfalso. pose proof (inject_pos a ltac:(lia)).
      assert (0 < inject_Z a / inject_Z b)%Q by (apply Qlt_shift_div_l; lra). lra.
    + subst a. unfold Qdiv. setoid_replace (inject_Z 0 * / inject_Z b)%Q with 0%Q by (unfold inject_Z at 1; ring). lra.
  - split; intros G.
    + destruct (Z.eq_dec a b) as [E|E]; [exact E|]. exfalso. pose proof (quotient_lt_1 a b ltac:(lia) Hb). lra.
    + subst a. rewrite (rnd_comp (inject_Z b / inject_Z b) 1) by (field; lra). exact rnd_1.
  - apply abs_err; [exact D0|]. apply rnd_err. exact D0.
Qed.

(* quotients keep their order *)
Lemma fdivz_mono a b c d : 0 <= a <= b -> 0 < b <= 2 ^ 53 -> 0 <= c <= d -> 0 < d <= 2 ^ 53 ->
  a * d <= c * b -> (fdivz a b <= fdivz c d)%Q.
Proof.
  intros Ha Hb Hc Hd H. rewrite !fdivz_small by lia. apply rnd_mono.
  pose proof (inject_pos b ltac:(lia)). pose proof (inject_pos d ltac:(lia)).
  apply Qle_shift_div_r; [assumption|]. setoid_replace (inject_Z c / inject_Z d * inject_Z b)%Q with ((inject_Z c * inject_Z b) / inject_Z d)%Q by (field; lra).
  apply Qle_shift_div_l; [assumption|]. rewrite <- !inject_Z_mult, <- Zle_Qle. exact H.
Qed.
Lemma fdivz_strict a b c d : 0 <= a <= b -> 0 < b <= 2 ^ 26 -> 0 <= c <= d -> 0 < d <= 2 ^ 26 ->
  a * d < c * b -> (fdivz a b < fdivz c d)%Q.
Proof.
  intros Ha Hb Hc Hd H. rewrite !fdivz_small by lia.
  pose proof (inject_pos b ltac:(lia)) as PB. pose proof (inject_pos d ltac:(lia)) as PD.
  destruct (rnd_err (inject_Z a / inject_Z b) (div_nonneg a b ltac:(lia) ltac:(lia))) as [_ A].
  destruct (rnd_err (inject_Z c / inject_Z d) (div_nonneg c d ltac:(lia) ltac:(lia))) as [B _].
  set (x := (inject_Z a / inject_Z b)%Q) in *. set (y := (inject_Z c / inject_Z d)%Q) in *.
  assert (Ex : (x * inject_Z b == inject_Z a)%Q) by (unfold x; field; lra).
  assert (Ey : (y * inject_Z d == inject_Z c)%Q) by (unfold y; field; lra).
  assert (G : (inject_Z a * inject_Z d + 1 <= inject_Z c * inject_Z b)%Q).
  { change 1%Q with (inject_Z 1). rewrite <- !inject_Z_mult, <- inject_Z_plus, <- Zle_Qle. lia. }
  assert (Bb : (inject_Z b <= 67108864)%Q) by (change 67108864%Q with (inject_Z (2 ^ 26)); rewrite <- Zle_Qle; lia).
  assert (Bd : (inject_Z d <= 67108864)%Q) by (change 67108864%Q with (inject_Z (2 ^ 26)); rewrite <- Zle_Qle; lia).
  assert (Y1 : (y <= 1)%Q).
  { unfold y. apply Qle_shift_div_r; [exact PD|]. rewrite Qmult_1_l, <- Zle_Qle. lia. }
  assert (X1 : (0 <= x)%Q) by (apply div_nonneg; lia).
  rewrite <- Ex, <- Ey in G. clear Ex Ey. set (b' := inject_Z b) in *. set (d' := inject_Z d) in *. clearbody x y b' d'.
  assert (BD : (b' * d' <= 67108864 * 67108864)%Q) by nra.
  assert (Gap : ((y - x) * (b' * d') >= 1)%Q) by lra.
  assert (P0 : (0 < b' * d')%Q) by nra. set (w := (b' * d')%Q) in *. clearbody w.
  assert (Pos : (0 < y - x)%Q) by (destruct (Qlt_le_dec 0 (y - x)) as [L|L]; [exact L|nra]).
  assert (Gap2 : ((1 # 4503599627370496) <= y - x)%Q) by nra.
  lra.
Qed.

(* ------------------------------------------------------------------ *)
(** * F1 *)

Lemma fl_double x : fl x -> fl (2 * x).
Proof.
  intros (k & e & H & E). exists k, (e + 1). split; [exact H|]. rewrite pow2_add by lia. change (inject_Z (2 ^ 1)) with 2%Q. rewrite E. ring.
Qed.
Lemma num_cls p r : fl p -> rnd (rnd (2 * p) * r) = rnd (2 * p * r).
Proof. intros F. apply rnd_comp. rewrite (rnd_id (2 * p) (fl_double p F)). reflexivity. Qed.
Lemma num_det p r : (rnd (2 * rnd (p * r)) == rnd (2 * p * r))%Q.
Proof.
  rewrite (rnd_id _ (fl_double _ (rnd_fl (p * r)))). rewrite (rnd_comp (2 * p * r) (2 * (p * r))) by ring. rewrite rnd_double. reflexivity.
Qed.
Lemma ff1_hmean p r : fl p -> ff1 p r = if Qlt_le_dec nano (rnd (p + r)) then hmean p r else 0%Q.
Proof. intros F. unfold ff1, hmean. rewrite (num_cls p r F). reflexivity. Qed.
Lemma fdet_f1_hmean p r : fdet_f1 p r = if Qlt_le_dec nano (rnd (p + r)) then hmean p r else 0%Q.
Proof. unfold fdet_f1, hmean. rewrite (rnd_div_wd _ _ _ _ (num_det p r) (Qeq_refl _)). reflexivity. Qed.
Lemma fseg_f1_hmean p r : fseg_f1 p r = if Qle_bool (rnd (p + r)) 0 then 0%Q else hmean p r.
Proof. unfold fseg_f1, hmean. rewrite (rnd_div_wd _ _ _ _ (num_det p r) (Qeq_refl _)). reflexivity. Qed.

(* the F1 of rounded precision and recall; the guard of the division does not fire when
   tp > 0 *)
Lemma hmean_reports tp fp fn f : 0 <= tp -> 0 <= fp -> 0 <= fn -> tp + fp <= 2 ^ 53 -> tp + fn <= 2 ^ 53 ->
  (0 < tp -> f = hmean (fdivz tp (tp + fp)) (fdivz tp (tp + fn))) -> (tp = 0 -> (f == 0)%Q) -> reports_f1 tp fp fn f.
Proof.
  intros H1 H2 H3 B1 B2 Hpos Hzero. destruct (Z.eq_dec tp 0) as [E|E].
  - specialize (Hzero E). split; [lra|]. split; [lra|]. split; [split; intros; assumption|].
    split; [split; intros G; [lra|lia]|lia].
  - specialize (Hpos ltac:(lia)). subst f.
    destruct (fdivz_ratio tp (tp + fp) ltac:(lia) B1) as (P0 & P1 & _ & P). destruct (P ltac:(lia)) as (Pz & Po & _). clear P.
    destruct (fdivz_ratio tp (tp + fn) ltac:(lia) B2) as (R0 & R1 & _ & R). destruct (R ltac:(lia)) as (Rz & Ro & _). clear R.
    assert (Fp := fdivz_fl tp (tp + fp)). assert (Fr := fdivz_fl tp (tp + fn)).
    set (p := fdivz tp (tp + fp)) in *. set (r := fdivz tp (tp + fn)) in *.
    destruct (hmean_range p r Fp Fr P1 R1) as [M0 M1]. split; [exact M0|]. split; [exact M1|]. split; [|split].
    + rewrite (hmean_zero p r P0 R0), Pz, Rz. lia.
    + rewrite (hmean_one p r Fp Fr P1 R1), Po, Ro. lia.
    + intros Ht q. assert (I1 := inject_pos tp Ht). assert (I2 := inject_pos (tp + fp) ltac:(lia)). assert (I3 := inject_pos (tp + fn) ltac:(lia)).
      assert (PP : (0 < inject_Z tp / inject_Z (tp + fp))%Q) by (apply Qlt_shift_div_l; lra).
      assert (RR : (0 < inject_Z tp / inject_Z (tp + fn))%Q) by (apply Qlt_shift_div_l; lra).
      destruct (rnd_err (inject_Z tp / inject_Z (tp + fp)) ltac:(lra)) as [p1 p2].
      destruct (rnd_err (inject_Z tp / inject_Z (tp + fn)) ltac:(lra)) as [r1 r2].
      rewrite <- (fdivz_small tp (tp + fp)) in p1, p2 by lia. rewrite <- (fdivz_small tp (tp + fn)) in r1, r2 by lia. fold p in p1, p2. fold r in r1, r2.
      pose proof (hmean_err _ _ p r PP RR p1 p2 r1 r2) as HE. cbv zeta in HE.
      assert (Eq : (2 * (inject_Z tp / inject_Z (tp + fp)) * (inject_Z tp / inject_Z (tp + fn)) / (inject_Z tp / inject_Z (tp + fp) + inject_Z tp / inject_Z (tp + fn)) == q)%Q).
      { unfold q. replace (2 * tp + fp + fn) with ((tp + fp) + (tp + fn)) by ring. rewrite (inject_Z_plus (tp + fp)), inject_Z_mult.
        change (inject_Z 2) with 2%Q. field. repeat split; try lra.
        assert (0 < inject_Z tp * inject_Z (tp + fn) + inject_Z tp * inject_Z (tp + fp))%Q by nra. lra. }
      rewrite Eq in HE. assert (Q0 : (0 <= q)%Q) by (apply div_nonneg; lia). apply Qabs_case; intros; lra.
Qed.

(* the guard p + r > 1e-9 holds for tp > 0 and at most 10^9 candidates *)
Lemma guard_nano tp a b : 0 < tp -> tp <= a <= 1000000000 -> tp <= b <= 1000000000 -> (nano < rnd (fdivz tp a + fdivz tp b))%Q.
Proof.
  intros Ht Ha Hb.
  assert (L : forall n, tp <= n <= 1000000000 -> ((999999999 # 1000000000000000000) <= fdivz tp n)%Q).
  { intros n Hn. rewrite fdivz_small by lia. destruct (rnd_err (inject_Z tp / inject_Z n) (div_nonneg tp n ltac:(lia) ltac:(lia))) as [E _].
    assert (G : ((1 # 1000000000) <= inject_Z tp / inject_Z n)%Q).
    { apply Qle_shift_div_l; [apply inject_pos; lia|]. assert (1 <= inject_Z tp)%Q by (change 1%Q with (inject_Z 1); rewrite <- Zle_Qle; lia).
      assert (inject_Z n <= 1000000000)%Q by (change 1000000000%Q with (inject_Z 1000000000); rewrite <- Zle_Qle; lia). lra. }
    lra. }
  pose proof (L a Ha). pose proof (L b Hb). set (x := (fdivz tp a + fdivz tp b)%Q) in *.
  assert (X : ((19 # 10000000000) <= x)%Q) by (unfold x; lra). destruct (rnd_err x ltac:(lra)) as [E _].
  assert (N : (nano <= 11 # 10000000000)%Q) by (vm_compute; discriminate). lra.
Qed.
Lemma nano_nonneg : (0 <= nano)%Q.
Proof. apply rnd_nonneg. Qed.
Lemma fdivz_0 b : 0 <= b -> (fdivz 0 b == 0)%Q.
Proof.
  intros H. unfold fdivz. destruct (0 <? b); [|reflexivity]. rewrite rnd_zero_iff.
  change (inject_Z 0) with 0%Q. rewrite (rnd_zero 0) by lra. unfold Qdiv. lra.
Qed.
Lemma hmean_no_tp a b : 0 <= a -> 0 <= b -> (hmean (fdivz 0 a) (fdivz 0 b) == 0)%Q.
Proof. intros Ha Hb. apply hmean_zero; [apply fl_nonneg, fdivz_fl..|]. left. apply fdivz_0. exact Ha. Qed.

Lemma ff1_reports tp fp fn : 0 <= tp -> 0 <= fp -> 0 <= fn -> tp + fp <= 1000000000 -> tp + fn <= 1000000000 ->
  reports_f1 tp fp fn (ff1 (fdivz tp (tp + fp)) (fdivz tp (tp + fn))).
Proof.
  intros H1 H2 H3 B1 B2. rewrite ff1_hmean by apply fdivz_fl. apply hmean_reports; try lia.
  - intros Ht. pose proof (guard_nano tp (tp + fp) (tp + fn) Ht ltac:(lia) ltac:(lia)). destruct (Qlt_le_dec _ _); [reflexivity|lra].
  - intros ->. destruct (Qlt_le_dec _ _); [apply hmean_no_tp; lia|reflexivity].
Qed.
Lemma fdet_f1_reports tp fp fn : 0 <= tp -> 0 <= fp -> 0 <= fn -> tp + fp <= 1000000000 -> tp + fn <= 1000000000 ->
  reports_f1 tp fp fn (fdet_f1 (fdivz tp (tp + fp)) (fdivz tp (tp + fn))).
Proof.
  intros H1 H2 H3 B1 B2. rewrite fdet_f1_hmean. apply hmean_reports; try lia.
  - intros Ht. pose proof (guard_nano tp (tp + fp) (tp + fn) Ht ltac:(lia) ltac:(lia)). destruct (Qlt_le_dec _ _); [reflexivity|lra].
  - intros ->. destruct (Qlt_le_dec _ _); [apply hmean_no_tp; lia|reflexivity].
Qed.
Lemma fseg_f1_reports tp fp fn : 0 <= tp -> 0 <= fp -> 0 <= fn -> tp + fp <= 2 ^ 53 -> tp + fn <= 2 ^ 53 ->
  reports_f1 tp fp fn (fseg_f1 (fdivz tp (tp + fp)) (fdivz tp (tp + fn))).
Proof.
  intros H1 H2 H3 B1 B2. rewrite fseg_f1_hmean. apply hmean_reports; try lia.
  - intros Ht. destruct (Qle_bool _ _) eqn:E; [|reflexivity]. exfalso. apply Qle_bool_iff in E.
    assert (G : (0 < fdivz tp (tp + fp))%Q).
    { destruct (fdivz_ratio tp (tp + fp) ltac:(lia) B1) as (P0 & _ & _ & P). destruct (P ltac:(lia)) as (Pz & _ & _).
      destruct (Qeq_dec (fdivz tp (tp + fp)) 0) as [Z0|Z0]; [apply Pz in Z0; lia|lra]. }
    pose proof (fl_nonneg _ (fdivz_fl tp (tp + fn))). pose proof (rnd_pos (fdivz tp (tp + fp) + fdivz tp (tp + fn)) ltac:(lra)). lra.
  - intros ->. destruct (Qle_bool _ _); [reflexivity|apply hmean_no_tp; lia].
Qed.
(* in [0, 1] for all counts *)
Lemma ff1_range a b c d : 0 <= a <= b -> 0 <= c <= d ->
  (0 <= ff1 (fdivz a b) (fdivz c d) /\ ff1 (fdivz a b) (fdivz c d) <= 1)%Q /\
  (0 <= fdet_f1 (fdivz a b) (fdivz c d) /\ fdet_f1 (fdivz a b) (fdivz c d) <= 1)%Q /\
  (0 <= fseg_f1 (fdivz a b) (fdivz c d) /\ fseg_f1 (fdivz a b) (fdivz c d) <= 1)%Q.
Proof.
  intros H1 H2. pose proof (hmean_range _ _ (fdivz_fl a b) (fdivz_fl c d) (proj2 (fdivz_range a b H1)) (proj2 (fdivz_range c d H2))) as HR.
  rewrite ff1_hmean, fdet_f1_hmean, fseg_f1_hmean by apply fdivz_fl.
  destruct (Qlt_le_dec _ _), (Qle_bool _ _); split; try split; try exact HR; lra.
Qed.

(* ------------------------------------------------------------------ *)
(** * Sums and means *)

Notation zlen l := (inject_Z (Z.of_nat (List.length l))).
Lemma zlen_app {A} (a b : list A) : (zlen (a ++ b) == zlen a + zlen b)%Q.
Proof. rewrite app_length, Nat2Z.inj_add, inject_Z_plus. reflexivity. Qed.
Lemma zlen_nonneg {A} (l : list A) : (0 <= zlen l)%Q.
Proof. apply inject_nonneg. lia. Qed.
Lemma total_app a b : (total (a ++ b) == total a + total b)%Q.
Proof. induction a as [|x a IH]; simpl; [ring|]. rewrite IH. ring. Qed.
Lemma total_perm a b : Permutation a b -> (total a == total b)%Q.
Proof. induction 1; simpl; [reflexivity|rewrite IHPermutation; reflexivity|ring|rewrite IHPermutation1; assumption]. Qed.
Notation unit_range := (fun x : Q => (0 <= x)%Q /\ (x <= 1)%Q).

Lemma tsum_nonneg t : Forall (fun x => (0 <= x)%Q) (leaves t) -> (0 <= tsum t)%Q.
Proof. destruct t as [|x|a b]; simpl; intros H; [lra|inversion H; assumption|apply rnd_nonneg]. Qed.
Lemma unit_nonneg l : Forall unit_range l -> Forall (fun x => (0 <= x)%Q) l.
Proof. apply Forall_impl. intros x [H _]. exact H. Qed.
Lemma tsum_le t : Forall unit_range (leaves t) -> Z.of_nat (List.length (leaves t)) <= 2 ^ 53 -> (tsum t <= zlen (leaves t))%Q.
Proof.
  induction t as [|x|a IHa b IHb]; simpl leaves; simpl tsum; intros H B.
  - vm_compute. discriminate.
  - inversion H as [|? ? [_ H1] _]. simpl. exact H1.
  - apply Forall_app in H. destruct H as [Ha Hb]. rewrite app_length in B. specialize (IHa Ha ltac:(lia)). specialize (IHb Hb ltac:(lia)).
    apply rnd_le; [apply fl_int; rewrite app_length; lia|]. rewrite zlen_app. lra.
Qed.
Lemma tsum_ones t : Forall (fun x => (x == 1)%Q) (leaves t) -> Z.of_nat (List.length (leaves t)) <= 2 ^ 53 -> (tsum t == zlen (leaves t))%Q.
Proof.
  induction t as [|x|a IHa b IHb]; simpl leaves; simpl tsum; intros H B.
  - simpl. reflexivity.
  - inversion H as [|? ? H1 _]. simpl. exact H1.
  - apply Forall_app in H. destruct H as [Ha Hb]. rewrite app_length in B. specialize (IHa Ha ltac:(lia)). specialize (IHb Hb ltac:(lia)).
    assert (E : (tsum a + tsum b == zlen (leaves a ++ leaves b))%Q) by (rewrite IHa, IHb, zlen_app; reflexivity).
    rewrite (rnd_comp _ _ E). apply rnd_int. rewrite app_length. lia.
Qed.
Lemma tsum_zeros t : Forall (fun x => (0 <= x)%Q) (leaves t) -> ((tsum t == 0)%Q <-> Forall (fun x => (x == 0)%Q) (leaves t)).
Proof.
  induction t as [|x|a IHa b IHb]; simpl leaves; simpl tsum; intros H.
  - split; [constructor|reflexivity].
  - inversion H as [|? ? H1 _]. split; [intros E; constructor; [exact E|constructor]|intros E; inversion E; assumption].
  - apply Forall_app in H. destruct H as [Ha Hb]. rewrite rnd_zero_iff. rewrite Forall_app, <- (IHa Ha), <- (IHb Hb).
    pose proof (tsum_nonneg a Ha). pose proof (tsum_nonneg b Hb). split; [intros; split; lra|intros [E F]; lra].
Qed.
Lemma tsum_fl t : Forall fl (leaves t) -> fl (tsum t).
Proof. destruct t as [|x|a b]; simpl; intros H; [exact fl_0|inversion H; assumption|apply rnd_fl]. Qed.
Lemma leaves_nil t : leaves t = [] -> (tsum t == 0)%Q.
Proof. intros E. apply tsum_zeros; rewrite E; constructor. Qed.

(* |sum - exact| <= n (n - 1) 2^-53 for n numbers of 53 bits in [0, 1] *)
Lemma tsum_err t : Forall unit_range (leaves t) -> Forall fl (leaves t) -> Z.of_nat (List.length (leaves t)) <= 2 ^ 53 ->
  (Qabs (tsum t - total (leaves t)) <= zlen (leaves t) * (zlen (leaves t) - 1) * ulp1)%Q.
Proof.
  induction t as [|x|a IHa b IHb]; simpl leaves; simpl tsum; intros H F B.
  - vm_compute. discriminate.
  - unfold total. simpl fold_right. simpl List.length. change (inject_Z (Z.of_nat 1)) with 1%Q. rewrite (Qabs_wd _ 0) by ring. simpl Qabs. lra.
  - apply Forall_app in H. destruct H as [Ha Hb]. apply Forall_app in F. destruct F as [Fa Fb]. rewrite app_length in B.
    specialize (IHa Ha Fa ltac:(lia)). specialize (IHb Hb Fb ltac:(lia)).
    pose proof (tsum_le a Ha ltac:(lia)) as La. pose proof (tsum_le b Hb ltac:(lia)) as Lb.
    pose proof (tsum_nonneg a (unit_nonneg _ Ha)) as Na. pose proof (tsum_nonneg b (unit_nonneg _ Hb)) as Nb.
    rewrite total_app, zlen_app.
    assert (Split : (Qabs (rnd (tsum a + tsum b) - (total (leaves a) + total (leaves b))) <=
      Qabs (rnd (tsum a + tsum b) - (tsum a + tsum b)) + (Qabs (tsum a - total (leaves a)) + Qabs (tsum b - total (leaves b))))%Q).
    { eapply Qle_trans; [|apply Qplus_le_compat; [apply Qle_refl|apply Qabs_triangle]].
      eapply Qle_trans; [|apply Qabs_triangle]. apply Qle_lteq. right. apply Qabs_wd. ring. }
    destruct (leaves a) as [|xa la] eqn:Ea.
    { pose proof (leaves_nil a Ea) as Za. assert (E : (tsum a + tsum b == tsum b)%Q) by (rewrite Za; ring).
      rewrite (rnd_comp _ _ E). rewrite (rnd_id (tsum b) (tsum_fl b Fb)). simpl total at 1. simpl List.length at 1 3. change (inject_Z (Z.of_nat 0)) with 0%Q.
      rewrite (Qabs_wd _ (tsum b - total (leaves b))) by ring. lra. }
    destruct (leaves b) as [|xb lb] eqn:Eb.
    { pose proof (leaves_nil b Eb) as Zb. assert (E : (tsum a + tsum b == tsum a)%Q) by (rewrite Zb; ring).
      rewrite (rnd_comp _ _ E). rewrite (rnd_id (tsum a) (tsum_fl a ltac:(rewrite Ea; exact Fa))). change (total []) with 0%Q. simpl List.length at 2 4. change (inject_Z (Z.of_nat 0)) with 0%Q.
      rewrite (Qabs_wd _ (tsum a - total (xa :: la))) by ring. lra. }
    assert (A1 : (1 <= zlen (xa :: la))%Q) by (change 1%Q with (inject_Z 1); rewrite <- Zle_Qle; simpl List.length; lia).
    assert (B1 : (1 <= zlen (xb :: lb))%Q) by (change 1%Q with (inject_Z 1); rewrite <- Zle_Qle; simpl List.length; lia).
    destruct (rnd_err (tsum a + tsum b) ltac:(lra)) as [R1 R2].
    assert (RE : (Qabs (rnd (tsum a + tsum b) - (tsum a + tsum b)) <= (zlen (xa :: la) + zlen (xb :: lb)) * ulp1)%Q) by (apply Qabs_case; intros; lra).
    eapply Qle_trans; [exact Split|]. set (n := zlen (xa :: la)) in *. set (m := zlen (xb :: lb)) in *. clearbody n m.
    assert (X : (0 <= 2 * (n * m) - n - m)%Q) by nra. lra.
Qed.

Lemma Forall_perm {A} (P : A -> Prop) l l' : Permutation l l' -> Forall P l' -> Forall P l.
Proof. intros Hp H. rewrite Forall_forall in *. intros x Hx. apply H. eapply Permutation_in; eassumption. Qed.

Section Mean.
  Variable nsum : list Q -> Q.
  Hypothesis Hsum : summation nsum.

  Lemma fmean_reports l v : fmean nsum l = Some v -> Forall unit_range l -> Forall fl l -> Z.of_nat (List.length l) <= 2 ^ 53 -> reports_mean l v /\ fl v.
  Proof.
    intros Hm Hu Hf Hn. unfold fmean in Hm. destruct l as [|x0 l0] eqn:El; [discriminate|]. rewrite <- El in *.
    injection Hm as Hv. destruct (Hsum l (unit_nonneg l Hu)) as (t & Hp & Ht).
    assert (Len : List.length (leaves t) = List.length l) by (apply Permutation_length; exact Hp).
    assert (Ut : Forall unit_range (leaves t)) by (eapply Forall_perm; eassumption).
    assert (Ft : Forall fl (leaves t)) by (eapply Forall_perm; eassumption).
    pose proof (tsum_le t Ut ltac:(lia)) as Le. pose proof (tsum_err t Ut Ft ltac:(lia)) as Err. pose proof (tsum_nonneg t (unit_nonneg _ Ut)) as Nn.
    pose proof (tsum_zeros t (unit_nonneg _ Ut)) as Zs. pose proof (fun H => tsum_ones t H ltac:(lia)) as Os.
    rewrite Len in Le, Err, Os. rewrite (total_perm _ _ Hp) in Err.
    assert (N1 : 1 <= Z.of_nat (List.length l)) by (rewrite El; simpl List.length; lia).
    assert (P : (1 <= zlen l)%Q) by (change 1%Q with (inject_Z 1); rewrite <- Zle_Qle; exact N1).
    assert (Ev : (v == rnd (tsum t / zlen l))%Q).
    { rewrite <- Hv. rewrite (rnd_div_wd (nsum l) (tsum t) _ (zlen l)); [reflexivity|exact Ht|apply rnd_int; lia]. }
    assert (Fv : fl v) by (apply (fl_wd (rnd (tsum t / zlen l))); [symmetry; exact Ev|apply rnd_fl]).
    split; [|exact Fv].
    set (n := zlen l) in *. set (s := tsum t) in *. set (x := (s / n)%Q) in *. assert (Ex : (x * n == s)%Q) by (unfold x; field; lra).
    assert (X0 : (0 <= x)%Q) by (unfold x; apply Qle_shift_div_l; lra). assert (X1 : (x <= 1)%Q) by (unfold x; apply Qle_shift_div_r; lra).
    split; [rewrite Ev; apply rnd_nonneg|]. split; [rewrite Ev; apply rnd_le; [exact fl_1|exact X1]|]. split; [|split].
    - rewrite Ev, rnd_zero_iff. transitivity (s == 0)%Q.
      + split; intros G; [nra|]. unfold x. rewrite G. unfold Qdiv. lra.
      + rewrite Zs. split; intros G; [eapply Forall_perm; [apply Permutation_sym; exact Hp|exact G]|eapply Forall_perm; eassumption].
    - intros G. rewrite Ev. rewrite (rnd_comp x 1); [exact rnd_1|]. specialize (Os (Forall_perm _ _ _ Hp G)). unfold x. rewrite Os. field. lra.
    - rewrite Ev. destruct (rnd_err x X0) as [R1 R2].
      assert (E1 : (Qabs (x - total l / n) <= (n - 1) * ulp1)%Q).
      { setoid_replace (x - total l / n)%Q with ((s - total l) * / n)%Q by (unfold x; field; lra). rewrite Qabs_Qmult.
        rewrite (Qabs_pos (/ n)) by (apply Qinv_le_0_compat; lra). apply Qle_shift_div_r; [lra|]. lra. }
      assert (T1 : (Qabs (rnd x - total l / n) <= Qabs (rnd x - x) + Qabs (x - total l / n))%Q).
      { eapply Qle_trans; [|apply Qabs_triangle]. apply Qle_lteq. right. apply Qabs_wd. ring. }
      assert (T2 : (Qabs (rnd x - x) <= ulp1)%Q) by (apply Qabs_case; intros; lra).
      change (zlen l) with n. lra.
  Qed.
End Mean.
