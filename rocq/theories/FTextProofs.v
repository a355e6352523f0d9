(* The float scores of text generation against the exact ones: the arithmetic. *)
From Verif Require Import Prelude Counting FloatModel FloatProofs RndProofs FReportModel FReportSpec FReportProofs FReportMain TextModel TextSpec FTextModel FTextSpec.
From Verif Require FReportRoc.
From Coq Require Import Lia String QArith Qabs Qminmax Lqa Permutation.
Local Notation length := List.length (only parsing).
Local Open Scope Z_scope.

Lemma best_wd q q' v : (q == q')%Q -> best_score q v -> best_score q' v.
Proof.
  intros E (H1 & H2 & H3 & H4 & H5). split; [|split; [|split; [|split]]].
  - intros k e Hk. rewrite <- E. apply H1. exact Hk.
  - exact H2.
  - rewrite <- E. exact H3.
  - rewrite <- E. exact H4.
  - rewrite <- E. exact H5.
Qed.
Lemma unit_best q : (0 <= q)%Q -> (q <= 1)%Q -> best_score q (rnd q).
Proof.
  intros H0 H1. split; [|split; [split; [apply rnd_nonneg|apply rnd_le; [exact fl_1|exact H1]]|split; [apply abs_err; [exact H0|apply rnd_err; exact H0]|split]]].
  - intros k e Hk. destruct (Qlt_le_dec 0 q) as [L|L]; [apply rnd_nearest; assumption|].
    rewrite (rnd_zero _ L). rewrite (Qabs_wd _ 0) by lra. apply Qabs_nonneg.
  - rewrite rnd_zero_iff. split; intros; lra.
  - intros E. rewrite (rnd_comp _ 1 E). exact rnd_1.
Qed.

(* ------------------------------------------------------------------ the F1 of statements *)
Lemma f1_close tp fp fn : 0 <= tp -> 0 <= fp -> 0 <= fn -> close_score 5 (f1_of tp fp fn) (ff1_of tp fp fn).
Proof.
  intros Ht Hp Hn. unfold f1_of, ff1_of, of_int. destruct (Z.ltb_spec 0 tp) as [T|T].
  2: { split; [split; lra|]. split; [vm_compute; discriminate|]. split; [tauto|]. intros; lra. }
  pose proof (inject_pos tp T) as PT. pose proof (inject_nonneg (fp + fn) ltac:(lia)) as PS.
  set (t := inject_Z tp) in *. set (s := inject_Z (fp + fn)) in *.
  destruct (rnd_err t ltac:(lra)) as [T1 T2]. destruct (rnd_err s PS) as [S1 S2].
  assert (Hh : (rnd ((1 # 2) * rnd s) == (1 # 2) * rnd s)%Q).
  { apply rnd_id. apply (fl_wd (rnd s / 2)); [field|]. apply FReportRoc.fl_half, rnd_fl. }
  pose proof (rnd_nonneg s) as S0. set (T' := rnd t) in *. set (S' := rnd s) in *. set (H := rnd ((1 # 2) * S')) in *.
  assert (T0 : (0 < T')%Q) by ( lra).
  assert (DD : fl (rnd (T' + H)) /\ (0 < T' + H)%Q) by (split; [apply rnd_fl|lra]). destruct DD as [_ D0].
  destruct (rnd_err (T' + H) ltac:(lra)) as [D1 D2].
  assert (DT : (T' <= rnd (T' + H))%Q) by (apply rnd_ge; [apply rnd_fl|lra]).
  set (D := rnd (T' + H)) in *. assert (Dp : (0 < D)%Q) by lra.
  set (den := (t + (1 # 2) * s)%Q). assert (Den : (0 < den)%Q) by (unfold den; lra).
  assert (Dl : (den * (1 - ulp1) <= T' + H)%Q) by (unfold den in *; lra).
  assert (Du : (T' + H <= den * (1 + ulp1))%Q) by (unfold den in *; lra).
  pose proof (rnd_nonneg (T' / D)) as V0.
  assert (QD : (0 <= T' / D)%Q) by (apply Qle_shift_div_l; lra).
  destruct (rnd_err (T' / D) QD) as [V1 V2].
  assert (Q0 : (0 < t / den)%Q) by (apply Qlt_shift_div_l; lra).
  assert (QQ : (t / den * den == t)%Q) by (field; lra). assert (VV : (T' / D * D == T')%Q) by (field; lra).
  set (q := (t / den)%Q) in *. set (w := (T' / D)%Q) in *. set (v := rnd w) in *.
  assert (W1 : (w <= q * (1 + 3 * ulp1 + (1 # 2) * ulp1))%Q).
  { apply (Qmult_lt_0_le_reg_r _ _ D Dp). rewrite VV.
    assert (A : (den * (1 - ulp1) * (1 - ulp1) <= D)%Q) by ( lra).
    assert (B : (q * (1 + 3 * ulp1 + (1 # 2) * ulp1) * (den * (1 - ulp1) * (1 - ulp1)) <= q * (1 + 3 * ulp1 + (1 # 2) * ulp1) * D)%Q).
    { rewrite !(Qmult_comm (q * (1 + 3 * ulp1 + (1 # 2) * ulp1))). apply Qmult_le_compat_r; [exact A|]. apply Qmult_le_0_compat; [lra|vm_compute; discriminate]. }
    assert (E : (q * (1 + 3 * ulp1 + (1 # 2) * ulp1) * (den * (1 - ulp1) * (1 - ulp1)) == t * ((1 + 3 * ulp1 + (1 # 2) * ulp1) * (1 - ulp1) * (1 - ulp1)))%Q)
      by (rewrite <- QQ; ring).
    rewrite E in B.  lra. }
  assert (W2 : (q * (1 - 3 * ulp1 - (1 # 2) * ulp1) <= w)%Q).
  { apply (Qmult_lt_0_le_reg_r _ _ D Dp). rewrite VV.
    assert (A : (D <= den * (1 + ulp1) * (1 + ulp1))%Q) by ( lra).
    assert (B : (q * (1 - 3 * ulp1 - (1 # 2) * ulp1) * D <= q * (1 - 3 * ulp1 - (1 # 2) * ulp1) * (den * (1 + ulp1) * (1 + ulp1)))%Q).
    { rewrite !(Qmult_comm (q * (1 - 3 * ulp1 - (1 # 2) * ulp1))). apply Qmult_le_compat_r; [exact A|]. apply Qmult_le_0_compat; [lra|vm_compute; discriminate]. }
    assert (E : (q * (1 - 3 * ulp1 - (1 # 2) * ulp1) * (den * (1 + ulp1) * (1 + ulp1)) == t * ((1 - 3 * ulp1 - (1 # 2) * ulp1) * (1 + ulp1) * (1 + ulp1)))%Q)
      by (rewrite <- QQ; ring).
    rewrite E in B.  lra. }
  assert (VU : (v <= 1)%Q). { apply rnd_le; [exact fl_1|]. apply Qle_shift_div_r; lra. }
  split; [split; assumption|]. split; [|split].
  - apply Qabs_Qle_condition.  change (inject_Z 5) with 5%Q. split; lra.
  - split; intros E; [|lra].  lra.
  - intros E. assert (Z0 : (s == 0)%Q). { assert (G : (t == den)%Q) by (rewrite <- QQ, E; ring). unfold den in G. lra. }
    assert (ZS : (H == 0)%Q). { rewrite Hh. unfold S'. rewrite (rnd_comp s 0 Z0). reflexivity. }
    assert (ZD : (D == T')%Q). { unfold D. rewrite (rnd_comp (T' + H) T' ltac:(lra)). apply rnd_id, rnd_fl. }
    unfold v. rewrite (rnd_comp w 1); [exact rnd_1|]. unfold w. rewrite ZD. field. lra.
Qed.

(* ------------------------------------------------------------------ greatest scores *)
Lemma Qmax2_cases a b : ((b <= a)%Q /\ Qmax2 a b = a) \/ ((a < b)%Q /\ Qmax2 a b = b).
Proof. unfold Qmax2. destruct (Qle_bool b a) eqn:E; [left; split; [apply Qle_bool_iff, E|reflexivity]|]. right. split; [|reflexivity].
  apply Qnot_le_lt. intros H. apply Qle_bool_iff in H. congruence. Qed.

Lemma max_close ops a a' b b' : 0 <= ops -> close_score ops a a' -> close_score ops b b' -> (0 <= a)%Q -> (0 <= b)%Q -> (a <= 1)%Q -> (b <= 1)%Q ->
  close_score ops (Qmax2 a b) (Qmax2 a' b').
Proof.
  intros Ho (A1 & A2 & A3 & A4) (B1 & B2 & B3 & B4) PA PB UA UB.
  apply Qabs_Qle_condition in A2, B2. pose proof (inject_nonneg ops Ho) as O0.
  set (k := (inject_Z ops * half_ulp)%Q) in *. assert (K0 : (0 <= k)%Q) by (unfold k; lra).
  assert (MA : (a <= b -> k * a <= k * b)%Q) by (intros L; rewrite !(Qmult_comm k); apply Qmult_le_compat_r; assumption).
  assert (MB : (b <= a -> k * b <= k * a)%Q) by (intros L; rewrite !(Qmult_comm k); apply Qmult_le_compat_r; assumption).
  destruct (Qmax2_cases a b) as [[L ->]|[L ->]]; destruct (Qmax2_cases a' b') as [[L' ->]|[L' ->]].
  - split; [exact A1|]. split; [apply Qabs_Qle_condition; fold k; exact A2|]. split; assumption.
  - specialize (MB L). split; [exact B1|]. split; [apply Qabs_Qle_condition; fold k; split; lra|]. split.
    + split; intros E; [|]. * apply B3 in E. lra. * assert (b == 0)%Q by lra. tauto.
    + intros E. specialize (A4 E). lra.
  - specialize (MA ltac:(lra)). split; [exact A1|]. split; [apply Qabs_Qle_condition; fold k; split; lra|]. split.
    + split; intros E; [|]. * apply A3 in E. assert (b' == 0)%Q by lra. tauto. * lra.
    + intros E. specialize (B4 E). lra.
  - split; [exact B1|]. split; [apply Qabs_Qle_condition; fold k; exact B2|]. split; assumption.
Qed.

(* v = rnd q up to ==, for scores in [0, 1] *)
Definition is_rnd (q v : Q) : Prop := (0 <= q <= 1)%Q /\ (v == rnd q)%Q.
Lemma is_rnd_best q v : is_rnd q v -> best_score q v.
Proof.
  intros [[H0 H1] E]. destruct (unit_best q H0 H1) as (B1 & B2 & B3 & B4 & B5).
  split; [|split; [|split; [|split]]].
  - intros k e Hk. rewrite E. apply B1. exact Hk.
  - rewrite E. exact B2.
  - rewrite E. exact B3.
  - rewrite E. exact B4.
  - rewrite E. exact B5.
Qed.
Lemma max_is_rnd a a' b b' : is_rnd a a' -> is_rnd b b' -> is_rnd (Qmax2 a b) (Qmax2 a' b').
Proof.
  intros [UA EA] [UB EB]. assert (M1 : (a <= b -> rnd a <= rnd b)%Q) by apply rnd_mono. assert (M2 : (b <= a -> rnd b <= rnd a)%Q) by apply rnd_mono.
  destruct (Qmax2_cases a b) as [[L ->]|[L ->]]; destruct (Qmax2_cases a' b') as [[L' ->]|[L' ->]]; split; try assumption.
  - specialize (M2 L). lra.
  - specialize (M1 ltac:(lra)). lra.
Qed.

(* ------------------------------------------------------------------ sums *)
Lemma sum_plain_ok : summation sum_plain.
Proof.
  intros l _. unfold sum_plain.
  assert (G : forall l t, exists t', leaves t' = leaves t ++ l /\ fold_left (fun a x => rnd (a + x)) l (tsum t) = tsum t').
  { clear. induction l as [|x l IH]; intros t; [exists t; split; [symmetry; apply app_nil_r|reflexivity]|]. cbn [fold_left].
    destruct (IH (SNode t (SLeaf x))) as (t' & L & E). exists t'. split; [rewrite L; cbn [leaves]; rewrite <- app_assoc; reflexivity|exact E]. }
  destruct (G l SZero) as (t & L & E). exists t. cbn [leaves tsum app] in *. rewrite L, E. split; [apply Permutation_refl|reflexivity].
Qed.

(* differences of neighbouring numbers are exact *)
Lemma pow2_shift e e' : e <= e' -> (pow2 e' == inject_Z (2 ^ (e' - e)) * pow2 e)%Q.
Proof. intros H. replace e' with (e + (e' - e)) at 1 by lia. rewrite pow2_add by lia. ring. Qed.
Lemma fl_diff x y : fl x -> fl y -> (y <= x)%Q -> (x <= 2 * y)%Q -> fl (x - y).
Proof.
  intros (k & e & Hk & Ex) (k' & e' & Hk' & Ey) L U.
  assert (G : forall k k' e e', 0 <= k <= 2 ^ 53 -> 0 <= k' <= 2 ^ 53 -> (x == inject_Z k * pow2 e)%Q -> (y == inject_Z k' * pow2 e')%Q -> e <= e' -> fl (x - y)).
  { clear - L U. intros k k' e e' Hk Hk' Ex Ey He. exists (k - k' * 2 ^ (e' - e)), e.
    assert (E : (x - y == inject_Z (k - k' * 2 ^ (e' - e)) * pow2 e)%Q).
    { rewrite Ex, Ey, (pow2_shift e e' He). unfold Z.sub. rewrite inject_Z_plus, inject_Z_opp, inject_Z_mult. ring. }
    split; [|exact E]. pose proof (pow2_pos e) as P. split.
    - rewrite Zle_Qle. change (inject_Z 0) with 0%Q.
      apply (Qmult_lt_0_le_reg_r _ _ (pow2 e) P). rewrite <- E. lra.
    - assert (0 <= k' * 2 ^ (e' - e)) by (apply Z.mul_nonneg_nonneg; [lia|apply Z.pow_nonneg; lia]). lia. }
  assert (G' : forall k k' e e', 0 <= k <= 2 ^ 53 -> 0 <= k' <= 2 ^ 53 -> (x == inject_Z k * pow2 e)%Q -> (y == inject_Z k' * pow2 e')%Q -> e' <= e -> fl (x - y)).
  { clear - L U. intros k k' e e' Hk Hk' Ex Ey He. exists (k * 2 ^ (e - e') - k'), e'.
    assert (E : (x - y == inject_Z (k * 2 ^ (e - e') - k') * pow2 e')%Q).
    { rewrite Ex, Ey, (pow2_shift e' e He). unfold Z.sub. rewrite inject_Z_plus, inject_Z_opp, inject_Z_mult. ring. }
    split; [|exact E]. pose proof (pow2_pos e') as P. split.
    - rewrite Zle_Qle. change (inject_Z 0) with 0%Q.
      apply (Qmult_lt_0_le_reg_r _ _ (pow2 e') P). rewrite <- E. lra.
    - apply Z.le_trans with k'; [|lia]. rewrite Zle_Qle.
      apply (Qmult_lt_0_le_reg_r _ _ (pow2 e') P). rewrite <- E, <- Ey. lra. }
  destruct (Z.le_ge_cases e e'); [exact (G k k' e e' Hk Hk' Ex Ey H)|exact (G' k k' e e' Hk Hk' Ex Ey H)].
Qed.

Lemma srnd_wd x y : (x == y)%Q -> (srnd x == srnd y)%Q.
Proof.
  intros E. unfold srnd. destruct (Qlt_le_dec x 0), (Qlt_le_dec y 0); try lra.
  - rewrite (rnd_comp (- x) (- y) ltac:(lra)). reflexivity.
  - rewrite (rnd_comp x y E). reflexivity.
Qed.
Lemma srnd_opp_fl y : fl y -> (srnd (- y) == - y)%Q.
Proof.
  intros F. pose proof (fl_nonneg y F). unfold srnd. destruct (Qlt_le_dec (- y) 0).
  - rewrite (rnd_comp (- - y) y ltac:(lra)), (rnd_id y F). reflexivity.
  - rewrite rnd_zero by lra. lra.
Qed.
Lemma srnd_err x : (Qabs (srnd x - x) <= ulp1 * Qabs x)%Q.
Proof.
  unfold srnd. destruct (Qlt_le_dec x 0) as [L|L].
  - destruct (rnd_err (- x) ltac:(lra)) as [A B]. rewrite (Qabs_neg x) by lra. apply Qabs_Qle_condition. split; lra.
  - destruct (rnd_err x L) as [A B]. rewrite (Qabs_pos x) by lra. apply Qabs_Qle_condition. split; lra.
Qed.

(* one step: d is the error of the addition, up to one rounding *)
Lemma step_error a x : fl a -> fl x ->
  let t := rnd (a + x) in
  let d := if Qle_bool (Qabs x) (Qabs a) then srnd (srnd (a - t) + x) else srnd (srnd (x - t) + a) in
  (Qabs (d - (a + x - t)) <= ulp1 * Qabs (a + x - t))%Q /\ (Qabs (a + x - t) <= ulp1 * (a + x))%Q /\ fl t.
Proof.
  intros Fa Fx t d. pose proof (fl_nonneg a Fa) as A0. pose proof (fl_nonneg x Fx) as X0.
  split; [|split; [|apply rnd_fl]].
  2: { destruct (rnd_err (a + x) ltac:(lra)) as [A B]. fold t in A, B. apply Qabs_Qle_condition. split; lra. }
  assert (G : forall b s, fl b -> fl s -> (s <= b)%Q -> (0 <= s)%Q -> (b + s == a + x)%Q -> (srnd (srnd (b - t) + s) == srnd (a + x - t))%Q).
  { intros b s Fb Fs L S0 E. apply srnd_wd.
    assert (Tl : (b <= t)%Q) by (apply rnd_ge; [exact Fb|lra]).
    assert (Tu : (t <= 2 * b)%Q) by (apply rnd_le; [apply fl_double, Fb|lra]).
    assert (F : fl (t - b)) by (apply fl_diff; [apply rnd_fl|exact Fb|exact Tl|exact Tu]).
    rewrite (srnd_wd (b - t) (- (t - b)) ltac:(ring)), (srnd_opp_fl _ F). lra. }
  unfold d. rewrite (Qabs_pos x X0), (Qabs_pos a A0). destruct (Qle_bool x a) eqn:E.
  - apply Qle_bool_iff in E. rewrite (Qabs_wd _ (srnd (a + x - t) - (a + x - t))) by (rewrite (G a x Fa Fx E X0 ltac:(ring)); reflexivity). apply srnd_err.
  - assert (L : (a <= x)%Q). { apply Qnot_lt_le. intros L. assert (Qle_bool x a = true) by (apply Qle_bool_iff; lra). congruence. }
    rewrite (Qabs_wd _ (srnd (a + x - t) - (a + x - t))) by (rewrite (G x a Fx Fa L A0 ltac:(ring)); reflexivity). apply srnd_err.
Qed.

(* k numbers in [0, 1] have been added: a is the running sum, c the compensation, E what c should be *)
Definition comp_inv (k : Q) (sum a c E : Q) : Prop :=
  fl a /\ (a <= k)%Q /\ (a + E == sum)%Q /\ (Qabs E <= k * 65536 * ulp1)%Q /\ (Qabs (c - E) <= k * 17179869184 * ulp1 * ulp1)%Q.
Lemma comp_step j sum a c E x : 0 <= j < 65536 -> comp_inv (inject_Z j) sum a c E -> fl x -> (x <= 1)%Q ->
  exists E', comp_inv (inject_Z (j + 1)) (sum + x) (fst (sum_step (a, c) x)) (snd (sum_step (a, c) x)) E'.
Proof.
  intros Hj (Fa & La & Es & HE & HC) Fx Lx. destruct (step_error a x Fa Fx) as (D1 & D2 & Ft).
  unfold sum_step. cbn [fst snd]. set (t := rnd (a + x)) in *.
  set (d := if Qle_bool (Qabs x) (Qabs a) then srnd (srnd (a - t) + x) else srnd (srnd (x - t) + a)) in *.
  pose proof (srnd_err (c + d)) as D3. set (c' := srnd (c + d)) in *. exists (E + (a + x - t))%Q. unfold comp_inv.
  pose proof (fl_nonneg a Fa) as A0. pose proof (fl_nonneg x Fx) as X0.
  assert (K : (0 <= inject_Z j)%Q /\ (inject_Z j <= 65535)%Q).
  { split; [apply inject_nonneg; lia|]. change 65535%Q with (inject_Z 65535). rewrite <- Zle_Qle. lia. }
  assert (TU : (t <= inject_Z (j + 1))%Q). { apply rnd_le; [apply fl_int; lia|]. rewrite inject_Z_plus. change (inject_Z 1) with 1%Q. lra. }
  rewrite inject_Z_plus in *. change (inject_Z 1) with 1%Q in *. set (k := inject_Z j) in *. clearbody k.
  split; [exact Ft|]. split; [exact TU|]. split; [lra|].
  set (e := (a + x - t)%Q) in *.
  assert (E1 : (Qabs e <= 65536 * ulp1)%Q) by lra.
  assert (E2 : (Qabs (E + e) <= (k + 1) * 65536 * ulp1)%Q).
  { eapply Qle_trans; [apply Qabs_triangle|]. lra. }
  split; [exact E2|].
  assert (C1 : (Qabs (c + d) <= 8589934592 * ulp1)%Q).
  { rewrite (Qabs_wd _ ((c - E) + ((d - e) + (E + e)))) by ring. eapply Qle_trans; [apply Qabs_triangle|].
    eapply Qle_trans; [apply Qplus_le_compat; [exact HC|apply Qabs_triangle]|]. lra. }
  rewrite (Qabs_wd _ ((c' - (c + d)) + ((c - E) + (d - e)))) by ring. eapply Qle_trans; [apply Qabs_triangle|].
  eapply Qle_trans; [apply Qplus_le_compat; [exact D3|apply Qabs_triangle]|]. lra.
Qed.
Lemma comp_fold r : forall j sum a c E, 0 <= j -> j + Z.of_nat (length r) <= 65536 -> comp_inv (inject_Z j) sum a c E -> Forall fl r -> Forall unit_range r ->
  exists E', comp_inv (inject_Z (j + Z.of_nat (length r))) (sum + total r) (fst (fold_left sum_step r (a, c))) (snd (fold_left sum_step r (a, c))) E'.
Proof.
  induction r as [|x r IH]; intros j sum a c E Hj Hn HI F U.
  - exists E. cbn [List.length fold_left fst snd total fold_right]. destruct HI as (H1 & H2 & H3 & H4 & H5). replace (j + Z.of_nat 0) with j by lia.
    split; [exact H1|]. split; [exact H2|]. split; [unfold total; cbn [fold_right]; lra|]. split; assumption.
  - inversion F as [|? ? Fx Fr]; subst. inversion U as [|? ? Ux Ur]; subst. cbn [List.length] in *.
    destruct (comp_step j sum a c E x ltac:(lia) HI Fx (proj2 Ux)) as (E1 & H1). cbn [fold_left]. destruct (sum_step (a, c) x) as [a1 c1]. cbn [fst snd] in H1.
    destruct (IH (j + 1) (sum + x)%Q a1 c1 E1 ltac:(lia) ltac:(lia) H1 Fr Ur) as (E2 & H2). exists E2.
    replace (j + Z.of_nat (S (length r))) with (j + 1 + Z.of_nat (length r)) by lia. destruct H2 as (A1 & A2 & A3 & A4 & A5).
    split; [exact A1|]. split; [exact A2|]. split; [rewrite A3; cbn [total fold_right]; fold (total r); ring|]. split; assumption.
Qed.
Lemma compensated_error l : l <> [] -> Z.of_nat (length l) <= 65536 -> Forall fl l -> Forall unit_range l -> ((1 # 65536) <= total l)%Q ->
  (Qabs (sum_compensated l - total l) <= (zlen l + (1 # 4)) * ulp1)%Q /\ (0 <= sum_compensated l)%Q.
Proof.
  destruct l as [|x r]; intros NE Hn F U T; [congruence|]. clear NE. inversion F as [|? ? Fx Fr]; subst. inversion U as [|? ? Ux Ur]; subst.
  assert (I0 : comp_inv (inject_Z 1) x x 0 0).
  { split; [exact Fx|]. split; [change (inject_Z 1) with 1%Q; apply Ux|]. split; [ring|]. split; vm_compute; discriminate. }
  cbn [List.length] in Hn. destruct (comp_fold r 1 x x 0%Q 0%Q ltac:(lia) ltac:(lia) I0 Fr Ur) as (E & FA & LA & ES & HE & HC).
  cbn [sum_compensated]. destruct (fold_left sum_step r (x, 0%Q)) as [a c]. cbn [fst snd] in *.
  assert (SE : (total (x :: r) == a + E)%Q) by (rewrite ES; reflexivity).
  assert (K : (zlen (x :: r) == inject_Z (1 + Z.of_nat (length r)))%Q) by (cbn [List.length]; replace (Z.of_nat (S (length r))) with (1 + Z.of_nat (length r)) by lia; reflexivity).
  assert (KB : (1 <= zlen (x :: r))%Q /\ (zlen (x :: r) <= 65536)%Q).
  { split; [apply FReportRoc.zlen_pos|]. change 65536%Q with (inject_Z 65536). rewrite <- Zle_Qle. cbn [List.length]. lia. }
  rewrite SE in T |- *. rewrite <- K in LA, HE, HC. set (k := zlen (x :: r)) in *. clearbody k.
  assert (R : ((if Qeq_bool c 0 then a else rnd (a + c)) == rnd (a + c))%Q).
  { destruct (Qeq_bool c 0) eqn:Ec; [|reflexivity]. apply Qeq_bool_iff in Ec. rewrite (rnd_comp (a + c) a ltac:(lra)), (rnd_id a FA). reflexivity. }
  split.
  - rewrite (Qabs_wd _ (rnd (a + c) - (a + E))) by (rewrite R; reflexivity).
    apply Qabs_Qle_condition in HC, HE. pose proof (fl_nonneg a FA) as A0.
    destruct (rnd_err (a + c)) as [R1 R2]; [lra|]. apply Qabs_Qle_condition. split; lra.
  - rewrite R. apply rnd_nonneg.
Qed.
Lemma compensated_ones l : Z.of_nat (length l) <= 65536 -> Forall (fun x => (x == 1)%Q) l -> (sum_compensated l == zlen l)%Q.
Proof.
  destruct l as [|x r]; intros Hn F; [reflexivity|]. inversion F as [|? ? Fx Fr]; subst. cbn [List.length sum_compensated] in *.
  assert (G : forall r j a c, 0 < j -> j + Z.of_nat (length r) <= 65536 -> (a == inject_Z j)%Q -> (c == 0)%Q -> Forall (fun x => (x == 1)%Q) r ->
    (fst (fold_left sum_step r (a, c)) == inject_Z (j + Z.of_nat (length r)))%Q /\ (snd (fold_left sum_step r (a, c)) == 0)%Q).
  { clear. induction r as [|x r IH]; intros j a c Hj Hn Ea Ec F.
    - cbn [fold_left fst snd List.length]. replace (j + Z.of_nat 0) with j by lia. split; assumption.
    - inversion F as [|? ? Fx Fr]; subst. cbn [List.length fold_left] in *.
      assert (FA : fl a) by (apply (fl_wd (inject_Z j)); [symmetry; exact Ea|apply fl_int; lia]). assert (FX : fl x) by (apply (fl_wd 1); [symmetry; exact Fx|exact fl_1]).
      destruct (step_error a x FA FX) as (D1 & _ & _). unfold sum_step at 2 4. set (t := rnd (a + x)) in *.
      assert (Et : (t == inject_Z (j + 1))%Q).
      { unfold t. rewrite (rnd_comp (a + x) (inject_Z (j + 1))); [apply rnd_int; lia|]. rewrite inject_Z_plus, Ea, Fx. reflexivity. }
      set (d := if Qle_bool (Qabs x) (Qabs a) then srnd (srnd (a - t) + x) else srnd (srnd (x - t) + a)) in *.
      assert (E0 : (a + x - t == 0)%Q) by (rewrite Et, Ea, Fx, inject_Z_plus; change (inject_Z 1) with 1%Q; ring).
      assert (D0 : (d == 0)%Q).
      { rewrite (Qabs_wd (a + x - t) 0 E0) in D1. change (Qabs 0) with 0%Q in D1. apply Qabs_Qle_condition in D1. lra. }
      replace (j + Z.of_nat (S (length r))) with (j + 1 + Z.of_nat (length r)) by lia. apply IH; [lia|lia|exact Et| |exact Fr].
      pose proof (srnd_err (c + d)) as S1. rewrite (Qabs_wd (c + d) 0) in S1 by lra. change (Qabs 0) with 0%Q in S1. apply Qabs_Qle_condition in S1. lra. }
  destruct (G r 1 x 0%Q ltac:(lia) ltac:(lia) Fx ltac:(reflexivity) Fr) as [A B]. destruct (fold_left sum_step r (x, 0%Q)) as [a c]. cbn [fst snd] in *.
  replace (1 + Z.of_nat (length r)) with (Z.of_nat (S (length r))) in A by lia. apply Qeq_bool_iff in B. rewrite B. exact A.
Qed.

(* ------------------------------------------------------------------ the mean of the precisions *)
Definition fraction_up_to (N : Z) (P : Q) : Prop := exists c k, 0 < c <= k /\ k <= N /\ (P == inject_Z c / inject_Z k)%Q.
Lemma fraction_bounds P : fraction_up_to 65536 P -> ((1 # 65536) <= P)%Q /\ (P <= 1)%Q /\ ((P == 1)%Q \/ (P <= 1 - (1 # 65536))%Q).
Proof.
  intros (c & k & Hc & Hk & E). assert (K0 : (0 < inject_Z k)%Q) by (apply inject_pos; lia).
  assert (KU : (inject_Z k <= 65536)%Q) by (change 65536%Q with (inject_Z 65536); rewrite <- Zle_Qle; lia).
  assert (C1 : (1 <= inject_Z c)%Q) by (change 1%Q with (inject_Z 1); rewrite <- Zle_Qle; lia).
  assert (CK : (inject_Z c <= inject_Z k)%Q) by (rewrite <- Zle_Qle; lia).
  split; [|split].
  - rewrite E. apply Qle_shift_div_l; [exact K0|]. lra.
  - rewrite E. apply Qle_shift_div_r; [exact K0|]. lra.
  - destruct (Z.eq_dec c k) as [->|NE].
    + left. rewrite E. field. lra.
    + right. rewrite E. apply Qle_shift_div_r; [exact K0|].
      assert (C2 : (inject_Z c <= inject_Z k - 1)%Q). { assert (G : c <= k - 1) by lia. rewrite Zle_Qle in G. unfold Z.sub in G. rewrite inject_Z_plus in G. change (inject_Z (- (1))) with (- (1))%Q in G. lra. }
      lra.
Qed.
Lemma total_bounds l : Forall (fraction_up_to 65536) l ->
  (zlen l * (1 # 65536) <= total l)%Q /\ (total l <= zlen l)%Q /\ (Forall (fun x => (x == 1)%Q) l \/ (total l <= zlen l - (1 # 65536))%Q) /\
  Forall (fun x => ((1 # 65536) <= x)%Q /\ unit_range x /\ fl x) (map rnd l) /\ (Qabs (total (map rnd l) - total l) <= zlen l * ulp1)%Q.
Proof.
  induction 1 as [|x l Hx _ IH].
  - change (total (map rnd [])) with 0%Q. change (total []) with 0%Q. change (zlen (@nil Q)) with 0%Q. split; [lra|]. split; [lra|]. split; [left; constructor|]. split; [constructor|]. vm_compute. discriminate.
  - destruct IH as (A & B & C & D & E). destruct (fraction_bounds x Hx) as (X1 & X2 & X3).
    assert (Z1 : (zlen (x :: l) == zlen l + 1)%Q).
    { cbn [List.length]. rewrite Nat2Z.inj_succ. unfold Z.succ. rewrite inject_Z_plus. reflexivity. }
    rewrite Z1. cbn [map total fold_right]. fold (total l). fold (total (map rnd l)).
    split; [lra|]. split; [lra|]. split; [|split].
    + destruct C as [C|C]; [|right; lra]. destruct X3 as [X3|X3]; [left; constructor; assumption|right; lra].
    + constructor; [|exact D]. split; [|split; [split; [apply rnd_nonneg|apply rnd_le; [exact fl_1|exact X2]]|apply rnd_fl]].
      apply rnd_ge; [|exact X1]. exists 1, (-16). split; [lia|]. vm_compute. reflexivity.
    + destruct (rnd_err x ltac:(lra)) as [R1 R2]. apply Qabs_Qle_condition in E. apply Qabs_Qle_condition. split; lra.
Qed.
Lemma map_rnd_ones l : Forall (fun x => (x == 1)%Q) l -> Forall (fun x => (x == 1)%Q) (map rnd l).
Proof. induction 1 as [|x l H _ IH]; constructor; [rewrite (rnd_comp x 1 H); exact rnd_1|exact IH]. Qed.

Lemma mean_near (new : bool) l N : l <> [] -> Z.of_nat (length l) <= N -> N <= 65536 -> Forall (fraction_up_to 65536) l ->
  near_score (if new then 4 else N + 1) (total l / zlen l) (rnd (py_sum new (map rnd l) / of_int (len (map rnd l)))).
Proof.
  intros NE HN HU F. destruct (total_bounds l F) as (A & B & C & D & E).
  assert (LZ : len (map rnd l) = Z.of_nat (length l)) by (unfold len; rewrite map_length; reflexivity).
  assert (LQ : (zlen (map rnd l) == zlen l)%Q) by (rewrite map_length; reflexivity).
  assert (K : (1 <= zlen l)%Q /\ (zlen l <= inject_Z N)%Q /\ (inject_Z N <= 65536)%Q).
  { split; [destruct l; [congruence|apply FReportRoc.zlen_pos]|]. rewrite <- Zle_Qle. change 65536%Q with (inject_Z 65536). rewrite <- Zle_Qle. lia. }
  destruct K as (K1 & K2 & K3).
  assert (OI : (of_int (len (map rnd l)) == zlen l)%Q) by (unfold of_int; rewrite LZ; apply rnd_int; lia).
  set (q := (total l / zlen l)%Q). assert (QE : (q * zlen l == total l)%Q) by (unfold q; field; lra).
  set (v := rnd (py_sum new (map rnd l) / of_int (len (map rnd l)))).
  assert (ERR : within (if new then 4 else N + 1) q v).
  { unfold within. destruct new; cbn [py_sum] in v.
    - change (inject_Z 4) with 4%Q.
      destruct (compensated_error (map rnd l)) as [SE S0].
      + destruct l; [congruence|discriminate].
      + rewrite map_length. lia.
      + eapply Forall_impl; [|exact D]. cbv beta. tauto.
      + eapply Forall_impl; [|exact D]. cbv beta. tauto.
      + apply Qabs_Qle_condition in E. assert ((1 # 65536) * 1 <= zlen l * (1 # 65536))%Q by lra. 
        destruct l as [|y r]; [congruence|]. cbn [map] in *. inversion D as [|? ? Dy Dr]; subst. cbn [total fold_right]. fold (total (map rnd r)).
        assert (0 <= total (map rnd r))%Q by (apply FReportRoc.total_nonneg; eapply Forall_impl; [|exact Dr]; cbv beta; tauto). lra.
      + rewrite LQ in SE. apply Qabs_Qle_condition in SE, E. set (S := sum_compensated (map rnd l)) in *.
        set (w := (S / of_int (len (map rnd l)))%Q) in *. assert (WE : (w * zlen l == S)%Q) by (unfold w; rewrite OI; field; lra).
        assert (W0 : (0 <= w)%Q) by (unfold w; rewrite OI; apply Qle_shift_div_l; lra).
        destruct (rnd_err w W0) as [R1 R2]. fold v in R1, R2.
        assert (W1 : (w <= q + (2 + (1 # 4)) * ulp1)%Q).
        { apply (Qmult_lt_0_le_reg_r _ _ (zlen l)); [lra|]. rewrite Qmult_plus_distr_l, WE, QE. lra. }
        assert (W2 : (q - (2 + (1 # 4)) * ulp1 <= w)%Q).
        { apply (Qmult_lt_0_le_reg_r _ _ (zlen l)); [lra|]. setoid_replace ((q - (2 + (1 # 4)) * ulp1) * zlen l)%Q with (total l - (2 + (1 # 4)) * ulp1 * zlen l)%Q by (rewrite <- QE; ring). rewrite WE. lra. }
        assert (QU : (q <= 1)%Q) by (unfold q; apply Qle_shift_div_r; lra).
        apply Qabs_Qle_condition. split; lra.
    - destruct (fmean_reports sum_plain sum_plain_ok (map rnd l) v) as [(_ & _ & _ & _ & M) _].
      + unfold v, of_int, len, fmean. destruct l as [|y r]; [congruence|reflexivity].
      + eapply Forall_impl; [|exact D]. cbv beta. tauto.
      + eapply Forall_impl; [|exact D]. cbv beta. tauto.
      + rewrite map_length. lia.
      + assert (TX : (Qabs (total (map rnd l) / zlen (map rnd l) - q) <= ulp1)%Q).
        { rewrite (Qabs_wd _ ((total (map rnd l) - total l) / zlen l)) by (unfold q; rewrite LQ; field; lra).
          unfold Qdiv. rewrite Qabs_Qmult, (Qabs_pos (/ zlen l)) by (apply Qinv_le_0_compat; lra).
          apply Qle_shift_div_r; [lra|]. lra. }
        rewrite inject_Z_plus. change (inject_Z 1) with 1%Q.
        rewrite (Qabs_wd _ ((v - total (map rnd l) / zlen (map rnd l)) + (total (map rnd l) / zlen (map rnd l) - q))) by ring.
        eapply Qle_trans; [apply Qabs_triangle|]. rewrite map_length in M. rewrite map_length in TX. rewrite map_length.
        set (X := Qabs (v - total (map rnd l) / zlen l)) in *. set (Y := Qabs (total (map rnd l) / zlen l - q)) in *. lra. }
  assert (ONE : Forall (fun x => (x == 1)%Q) l -> (v == 1)%Q).
  { intros H. pose proof (map_rnd_ones l H) as H'. assert (SZ : (py_sum new (map rnd l) == zlen l)%Q).
    { destruct new; cbn [py_sum].
      - rewrite compensated_ones; [exact LQ|rewrite map_length; lia|exact H'].
      - destruct (sum_plain_ok (map rnd l)) as (t & P & ES). { eapply Forall_impl; [|exact D]. cbv beta. tauto. }
        rewrite ES. pose proof (Forall_perm _ _ _ P H') as HL. rewrite (tsum_ones t HL) by (rewrite (Permutation_length P), map_length; lia).
        rewrite (Permutation_length P). exact LQ. }
    unfold v. rewrite (rnd_comp _ 1); [exact rnd_1|]. rewrite SZ, OI. field. lra. }
  assert (EB : (inject_Z (if new then 4 else N + 1)%Z <= 65537)%Q).
  { destruct new; [vm_compute; discriminate|]. rewrite inject_Z_plus. change (inject_Z 1) with 1%Q. lra. }
  unfold within in ERR. set (k := inject_Z (if new then 4 else N + 1)%Z) in *. pose proof ERR as ERR'. apply Qabs_Qle_condition in ERR'.
  pose proof (rnd_nonneg (py_sum new (map rnd l) / of_int (len (map rnd l)))) as V0. fold v in V0.
  assert (Q0 : ((1 # 65536) <= q)%Q) by (unfold q; apply Qle_shift_div_l; lra).
  destruct C as [C|C].
  - assert (Q1 : (q == 1)%Q). { assert (TT : (total l == zlen l)%Q). { clear - C. induction C as [|x l H _ IH]; [reflexivity|]. cbn [total fold_right]. fold (total l). change (x == 1)%Q in H. cbn [List.length]. rewrite Nat2Z.inj_succ. unfold Z.succ. rewrite inject_Z_plus. change (inject_Z 1) with 1%Q. lra. }
      unfold q. rewrite TT. field. lra. }
    specialize (ONE C). split; [split; lra|]. split; [exact ERR|]. split; split; intros; lra.
  - assert (Q1 : (q <= 1 - (1 # 4294967296))%Q).
    { unfold q. apply Qle_shift_div_r; [lra|]. lra. }
    split; [split; lra|]. split; [exact ERR|]. split; split; intros; lra.
Qed.

(* ------------------------------------------------------------------ context precision *)
Lemma fprecisions_map seen rest : fprecisions seen rest = map rnd (precisions seen rest).
Proof. revert seen. induction rest as [|b r IH]; intros seen; [reflexivity|]. cbn [fprecisions precisions]. destruct b; [cbn [map]; rewrite IH; reflexivity|apply IH]. Qed.
Lemma count_true_app a b : count_true (a ++ b) = count_true a + count_true b.
Proof. unfold count_true. rewrite countb_app. lia. Qed.
Lemma count_true_len l : 0 <= count_true l <= len l.
Proof. unfold count_true, len. pose proof (countb_le_length (fun b : bool => b) l). lia. Qed.
Lemma precisions_fractions N seen rest : len seen + len rest <= N -> Forall (fraction_up_to N) (precisions seen rest).
Proof.
  revert seen. induction rest as [|b r IH]; intros seen H; [constructor|]. cbn [precisions].
  assert (L : len (seen ++ [b]) = len seen + 1) by (unfold len; rewrite app_length; cbn [List.length]; lia).
  assert (L' : len (b :: r) = 1 + len r) by (unfold len; cbn [List.length]; lia). specialize (IH (seen ++ [b]) ltac:(lia)).
  destruct b; [|exact IH]. constructor; [|exact IH]. exists (count_true (seen ++ [true])), (len (seen ++ [true])). split; [|split; [|reflexivity]].
  - rewrite count_true_app. pose proof (count_true_len seen). change (count_true [true]) with 1. lia.
  - unfold len in *. lia.
Qed.
Lemma precisions_length seen rest : len (precisions seen rest) <= len rest.
Proof.
  revert seen. induction rest as [|b r IH]; intros seen; [reflexivity|]. cbn [precisions]. specialize (IH (seen ++ [b])).
  assert (L' : len (b :: r) = 1 + len r) by (unfold len; cbn [List.length]; lia). destruct b; [|lia]. unfold len in *. cbn [List.length] in *. lia.
Qed.
Lemma Qsum_total l : (Qsum l == total l)%Q.
Proof.
  unfold Qsum. assert (G : forall l x, (fold_left Qplus l x == x + total l)%Q).
  { clear. induction l as [|y l IH]; intros x; [cbn [fold_left total fold_right]; change (total []) with 0%Q; ring|]. cbn [fold_left total fold_right]. fold (total l). rewrite IH. ring. }
  rewrite G. ring.
Qed.
Lemma near_wd ops q q' v : (q == q')%Q -> near_score ops q v -> near_score ops q' v.
Proof. intros E (H1 & H2 & H3 & H4). unfold near_score, within in *. rewrite <- E. tauto. Qed.
Lemma precision_near (new : bool) agg : exists q v, precision_score agg = Ok q /\ fprecision_score new agg = Ok v /\ (len agg <= 65536 -> near_score (if new then 4 else len agg + 1) q v).
Proof.
  unfold precision_score, fprecision_score. rewrite fprecisions_map. destruct (precisions [] agg) as [|p ps] eqn:Ep.
  - exists 0%Q, 0%Q. split; [reflexivity|]. split; [reflexivity|]. intros H. split; [split; lra|]. split; [|split; split; intros; lra].
    unfold within. rewrite (Qabs_wd _ 0) by ring. change (Qabs 0) with 0%Q. pose proof (inject_nonneg (if new then 4 else len agg + 1)%Z ltac:(destruct new; unfold len in *; lia)). lra.
  - cbn [map]. eexists. eexists. split; [reflexivity|]. split; [reflexivity|]. intros H.
    assert (F : Forall (fraction_up_to 65536) (p :: ps)) by (rewrite <- Ep; apply precisions_fractions; unfold len at 1; cbn [List.length]; lia).
    assert (L : Z.of_nat (length (p :: ps)) <= len agg) by (rewrite <- Ep; apply precisions_length).
    change (rnd p :: map rnd ps) with (map rnd (p :: ps)). eapply near_wd; [|apply mean_near; [discriminate|exact L|exact H|exact F]].
    rewrite Qsum_total. reflexivity.
Qed.
