(* More on the rounding [rnd]: monotone, exact on 53-bit numbers, compatible with doubling;
   rounded quotients of counts, rounded F1, rounded sums and means. *)
From Verif Require Import Prelude Counting CacheModel ClsModel DetModel DetFlowModel DetReportModel FloatModel FloatProofs.
From Coq Require Import Lia String QArith Qround Qabs Qminmax Lqa.
Local Open Scope Z_scope.

(* a non-negative number of 53 bits *)
Definition fl (x : Q) : Prop := exists k e, 0 <= k <= 2 ^ 53 /\ (x == inject_Z k * pow2 e)%Q.

Lemma fl_wd x y : (x == y)%Q -> fl x -> fl y.
Proof. intros E (k & e & H & E'). exists k, e. split; [exact H|]. rewrite <- E. exact E'. Qed.
Lemma fl_nonneg x : fl x -> (0 <= x)%Q.
Proof.
  intros (k & e & H & E). rewrite E. apply Qmult_le_0_compat; [|apply Qlt_le_weak, pow2_pos].
  change 0%Q with (inject_Z 0). rewrite <- Zle_Qle. lia.
Qed.
Lemma pow2_0 : (pow2 0 == 1)%Q.
Proof. reflexivity. Qed.
Lemma fl_int k : 0 <= k <= 2 ^ 53 -> fl (inject_Z k).
Proof. intros H. exists k, 0. split; [exact H|]. rewrite pow2_0. ring. Qed.
Lemma fl_0 : fl 0.
Proof. apply (fl_int 0). lia. Qed.
Lemma fl_1 : fl 1.
Proof. apply (fl_int 1). lia. Qed.
Lemma rnd_zero x : (x <= 0)%Q -> rnd x = 0%Q.
Proof.
  intros H. unfold rnd. assert (E : Qnum (Qred x) <= 0).
  { assert (G : (Qred x <= 0)%Q) by (rewrite Qred_correct; exact H). unfold Qle in G. simpl in G. lia. }
  destruct (Z.leb_spec (Qnum (Qred x)) 0); [reflexivity|lia].
Qed.
Lemma rnd_fl x : fl (rnd x).
Proof.
  destruct (Qlt_le_dec 0 x) as [H|H].
  - destruct (rnd_format x H) as (m & s & B & E). exists m, s. split; [lia|exact E].
  - rewrite (rnd_zero x H). exact fl_0.
Qed.
Lemma rnd_nonneg x : (0 <= rnd x)%Q.
Proof. apply fl_nonneg, rnd_fl. Qed.
Lemma rnd_best x y : (0 < x)%Q -> fl y -> (Qabs (rnd x - x) <= Qabs (y - x))%Q.
Proof.
  intros Hx (k & e & H & E). rewrite E. apply rnd_nearest; [exact Hx|lia].
Qed.
Lemma rnd_id x : fl x -> (rnd x == x)%Q.
Proof.
  intros H. destruct (Qlt_le_dec 0 x) as [Hx|Hx].
  - pose proof (rnd_best x x Hx H) as G. setoid_replace (x - x)%Q with 0%Q in G by ring. change (Qabs 0) with 0%Q in G.
    pose proof (Qle_Qabs (rnd x - x)). pose proof (Qle_Qabs (- (rnd x - x))) as G2. rewrite Qabs_opp in G2. lra.
  - rewrite (rnd_zero x Hx). pose proof (fl_nonneg x H). lra.
Qed.
Lemma rnd_mono x y : (x <= y)%Q -> (rnd x <= rnd y)%Q.
Proof.
  intros H. destruct (Qlt_le_dec 0 x) as [Hx|Hx].
  - assert (Hy : (0 < y)%Q) by lra. destruct (Qlt_le_dec (rnd y) (rnd x)) as [L|L]; [exfalso|exact L].
    pose proof (rnd_best x (rnd y) Hx (rnd_fl y)) as A. pose proof (rnd_best y (rnd x) Hy (rnd_fl x)) as B.
    assert (NE : ~ (x == y)%Q) by (intros E; rewrite (rnd_comp x y E) in L; lra).
    set (a := rnd y) in *. set (b := rnd x) in *. clearbody a b.
    assert (M1 : (a + b <= 2 * x)%Q).
    { revert A. apply (Qabs_case (b - x)); intros; revert A; apply (Qabs_case (a - x)); intros; lra. }
    assert (M2 : (2 * y <= a + b)%Q).
    { revert B. apply (Qabs_case (a - y)); intros; revert B; apply (Qabs_case (b - y)); intros; lra. }
    apply NE. lra.
  - rewrite (rnd_zero x Hx). apply rnd_nonneg.
Qed.

(* ------------------------------------------------------------------ *)
(** * Doubling *)

Lemma nearest_even_scale k n d : 0 < k -> 0 < d -> nearest_even (k * n) (k * d) = nearest_even n d.
Proof.
  intros Hk Hd. unfold nearest_even. rewrite Z.div_mul_cancel_l, Z.mul_mod_distr_l by lia.
  replace (2 * (k * (n mod d)) <? k * d) with (2 * (n mod d) <? d) by (destruct (Z.ltb_spec (2 * (n mod d)) d), (Z.ltb_spec (2 * (k * (n mod d))) (k * d)); nia).
  replace (k * d <? 2 * (k * (n mod d))) with (d <? 2 * (n mod d)) by (destruct (Z.ltb_spec d (2 * (n mod d))), (Z.ltb_spec (k * d) (2 * (k * (n mod d)))); nia).
  reflexivity.
Qed.
Lemma nearest_even_ratio n d n' d' : 0 < d -> 0 < d' -> n * d' = n' * d -> nearest_even n d = nearest_even n' d'.
Proof.
  intros Hd Hd' E. rewrite <- (nearest_even_scale d' n d), <- (nearest_even_scale d n' d') by assumption.
  f_equal; lia.
Qed.
Lemma form_lt N D s N' D' s' : 0 < D -> 0 < D' -> 2 ^ 52 * D <= N -> N' < 2 ^ 53 * D' -> s < s' ->
  (inject_Z N' / inject_Z D' * pow2 (- s') < inject_Z N / inject_Z D * pow2 (- s))%Q.
Proof.
  intros HD HD' HN HN' Hs. assert (E := pow2_add (- s') (s' - s) ltac:(lia)). replace (- s' + (s' - s)) with (- s) in E by lia.
  assert (G2 : (2 <= inject_Z (2 ^ (s' - s)))%Q).
  { change 2%Q with (inject_Z (2 ^ 1)). rewrite <- Zle_Qle. apply Z.pow_le_mono_r; lia. }
  pose proof (pow2_pos (- s')) as P.
  assert (A : (inject_Z (2 ^ 52) <= inject_Z N / inject_Z D)%Q).
  { apply Qle_shift_div_l; [apply inject_pos; exact HD|]. rewrite <- inject_Z_mult, <- Zle_Qle. exact HN. }
  assert (B : (inject_Z N' / inject_Z D' < 2 * inject_Z (2 ^ 52))%Q).
  { apply Qlt_shift_div_r; [apply inject_pos; exact HD'|]. change 2%Q with (inject_Z 2). rewrite <- !inject_Z_mult, <- Zlt_Qlt. lia. }
  rewrite E. set (a := (inject_Z N / inject_Z D)%Q) in *. set (b := (inject_Z N' / inject_Z D')%Q) in *.
  set (c := inject_Z (2 ^ 52)) in *. set (w := inject_Z (2 ^ (s' - s))) in *. set (u := pow2 (- s')) in *.
  assert (C : (0 < c)%Q) by (apply inject_pos; lia). clearbody a b c w u.
  apply Qlt_le_trans with (2 * c * u)%Q; [apply Qmult_lt_compat_r; assumption|].
  apply Qle_trans with (a * 2 * u)%Q.
  - apply Qmult_le_compat_r; [|lra]. nra.
  - setoid_replace (a * (u * w))%Q with (a * w * u)%Q by ring. apply Qmult_le_compat_r; [|lra]. nra.
Qed.
Lemma rnd_double x : (rnd (2 * x) == 2 * rnd x)%Q.
Proof.
  destruct (Qlt_le_dec 0 x) as [H|H].
  2: { rewrite (rnd_zero x H), (rnd_zero (2 * x)) by lra. reflexivity. }
  destruct (rnd_form x H) as (N & D & s & m & HD & HN & Ex & Em & Er).
  destruct (rnd_form (2 * x) ltac:(lra)) as (N' & D' & s' & m' & HD' & HN' & Ex' & Em' & Er').
  assert (P2 := pow2_add (- (s' + 1)) 1 ltac:(lia)). replace (- (s' + 1) + 1) with (- s') in P2 by lia. change (inject_Z (2 ^ 1)) with 2%Q in P2.
  assert (Ex2 : (x == inject_Z N' / inject_Z D' * pow2 (- (s' + 1)))%Q).
  { apply (Qmult_inj_l _ _ 2); [discriminate|]. rewrite Ex', P2. ring. }
  destruct (Z.lt_trichotomy s (s' + 1)) as [L|[L|L]].
  - exfalso. pose proof (form_lt N D s N' D' (s' + 1) HD HD' ltac:(lia) ltac:(lia) L) as F. rewrite <- Ex, <- Ex2 in F. lra.
  - subst s. assert (Q1 : (inject_Z N / inject_Z D == inject_Z N' / inject_Z D')%Q).
    { apply (Qmult_inj_r _ _ (pow2 (- (s' + 1)))); [pose proof (pow2_pos (- (s' + 1))); lra|]. rewrite <- Ex, <- Ex2. reflexivity. }
    assert (Q2 : N * D' = N' * D).
    { assert (Q3 : (inject_Z (N * D') == inject_Z (N' * D))%Q).
      { rewrite !inject_Z_mult. transitivity (inject_Z N / inject_Z D * (inject_Z D * inject_Z D'))%Q.
        - field. pose proof (inject_pos D HD). lra.
        - rewrite Q1. field. pose proof (inject_pos D' HD'). lra. }
      unfold Qeq in Q3. simpl in Q3. lia. }
    rewrite Er, Er', Em, Em', (nearest_even_ratio N D N' D' HD HD' Q2), P2. ring.
  - exfalso. pose proof (form_lt N' D' (s' + 1) N D s HD' HD ltac:(lia) ltac:(lia) L) as F. rewrite <- Ex, <- Ex2 in F. lra.
Qed.

(* ------------------------------------------------------------------ *)
(** * Bounds *)

Notation ulp1 := (1 # 9007199254740992)%Q.   (* 2^-53 *)

Lemma rnd_err x : (0 <= x)%Q -> (x * (1 - ulp1) <= rnd x /\ rnd x <= x * (1 + ulp1))%Q.
Proof.
  intros H. destruct (Qlt_le_dec 0 x) as [Hx|Hx].
  - pose proof (rnd_rel x Hx) as G. pose proof (Qle_Qabs (rnd x - x)). pose proof (Qle_Qabs (- (rnd x - x))) as G2. rewrite Qabs_opp in G2. lra.
  - rewrite (rnd_zero x Hx). lra.
Qed.
Lemma rnd_le x y : fl y -> (x <= y)%Q -> (rnd x <= y)%Q.
Proof. intros F H. rewrite <- (rnd_id y F). apply rnd_mono. exact H. Qed.
Lemma rnd_ge x y : fl x -> (x <= y)%Q -> (x <= rnd y)%Q.
Proof. intros F H. rewrite <- (rnd_id x F) at 1. apply rnd_mono. exact H. Qed.
Lemma rnd_zero_iff x : (rnd x == 0)%Q <-> (x <= 0)%Q.
Proof.
  split; intros H; [|rewrite (rnd_zero x H); reflexivity].
  destruct (Qlt_le_dec 0 x) as [Hx|Hx]; [|exact Hx]. pose proof (rnd_pos x Hx). lra.
Qed.
Lemma fl_below_1 : fl (1 - ulp1).
Proof. exists (2 ^ 53 - 1), (-53). split; [lia|]. reflexivity. Qed.
(* a quotient of counts up to 2^53 *)
Lemma quotient_lt_1 a b : 0 <= a < b -> b <= 2 ^ 53 -> (rnd (inject_Z a / inject_Z b) <= 1 - ulp1)%Q.
Proof.
  intros H Hb. apply rnd_le; [exact fl_below_1|]. pose proof (inject_pos b ltac:(lia)) as P.
  apply Qle_shift_div_r; [exact P|].
  assert (A : (inject_Z a <= inject_Z b - 1)%Q).
  { change 1%Q with (inject_Z 1). unfold Qminus. rewrite <- inject_Z_opp, <- inject_Z_plus, <- Zle_Qle. lia. }
  assert (B : (inject_Z b <= 9007199254740992)%Q).
  { change 9007199254740992%Q with (inject_Z (2 ^ 53)). rewrite <- Zle_Qle. exact Hb. }
  lra.
Qed.
Lemma quotient_le_1 a b : 0 <= a <= b -> (rnd (inject_Z a / inject_Z b) <= 1)%Q.
Proof.
  intros H. apply rnd_le; [exact fl_1|]. destruct (Z.eq_dec b 0) as [->|Hb].
  - replace a with 0 by lia. discriminate.
  - apply Qle_shift_div_r; [apply inject_pos; lia|]. rewrite Qmult_1_l, <- Zle_Qle. lia.
Qed.
Lemma rnd_1 : (rnd 1 == 1)%Q.
Proof. apply rnd_id, fl_1. Qed.

(* ------------------------------------------------------------------ *)
(** * The harmonic mean *)

Lemma fl_upper x : fl x -> ((1 # 2) < x)%Q -> (x <= 1)%Q -> exists j, 0 <= j /\ (x == 1 - inject_Z j * ulp1)%Q.
Proof.
  intros (k & e & Hk & E) L U. destruct (Z.lt_ge_cases e (-53)) as [He|He].
  - exfalso. assert (P := pow2_add e (-54 - e) ltac:(lia)). replace (e + (-54 - e)) with (-54) in P by lia.
    assert (G1 : (1 <= inject_Z (2 ^ (-54 - e)))%Q).
    { change 1%Q with (inject_Z 1). rewrite <- Zle_Qle. pose proof (Z.pow_pos_nonneg 2 (-54 - e) ltac:(lia) ltac:(lia)). lia. }
    assert (P54 : (pow2 (-54) == 1 # 18014398509481984)%Q) by reflexivity.
    assert (K : (inject_Z k <= 9007199254740992)%Q) by (change 9007199254740992%Q with (inject_Z (2 ^ 53)); rewrite <- Zle_Qle; lia).
    assert (K0 : (0 <= inject_Z k)%Q) by (change 0%Q with (inject_Z 0); rewrite <- Zle_Qle; lia).
    pose proof (pow2_pos e) as Pe. rewrite E in L. set (u := pow2 e) in *. set (w := inject_Z (2 ^ (-54 - e))) in *. set (q := inject_Z k) in *.
    clearbody u w q. assert (Hu : (u <= 1 # 18014398509481984)%Q) by nra.
    assert (q * u <= 9007199254740992 * (1 # 18014398509481984))%Q by nra. lra.
  - assert (P := pow2_add (-53) (e + 53) ltac:(lia)). replace (-53 + (e + 53)) with e in P by lia.
    assert (P53 : (pow2 (-53) == ulp1)%Q) by reflexivity. rewrite P53 in P.
    exists (2 ^ 53 - k * 2 ^ (e + 53)).
    assert (X : (x == inject_Z (k * 2 ^ (e + 53)) * ulp1)%Q) by (rewrite E, P, inject_Z_mult; ring).
    split.
    + assert (G : (inject_Z (k * 2 ^ (e + 53)) <= inject_Z (2 ^ 53))%Q).
      { change (inject_Z (2 ^ 53)) with 9007199254740992%Q. rewrite X in U. lra. }
      rewrite <- Zle_Qle in G. lia.
    + unfold Z.sub. rewrite inject_Z_plus, inject_Z_opp. change (inject_Z (2 ^ 53)) with 9007199254740992%Q. rewrite X. ring.
Qed.

(* 2 p r / (p + r) with every operation rounded *)
Definition hmean (p r : Q) : Q := rnd (rnd (2 * p * r) / rnd (p + r)).
Lemma hmean_wd p r p' r' : (p == p')%Q -> (r == r')%Q -> hmean p r = hmean p' r'.
Proof.
  intros E F. unfold hmean. assert (G1 : (2 * p * r == 2 * p' * r')%Q) by (rewrite E, F; reflexivity).
  assert (G2 : (p + r == p' + r')%Q) by (rewrite E, F; reflexivity). rewrite (rnd_comp _ _ G1), (rnd_comp _ _ G2). reflexivity.
Qed.

(* near 1: p = 1 - j/2^53, r = 1 - k/2^53 with j + k <= 5 *)
Definition near (j k : Z) : bool :=
  let p := (1 - inject_Z j * ulp1)%Q in let r := (1 - inject_Z k * ulp1)%Q in
  match Qcompare (rnd (2 * p * r)) (rnd (p + r)) with Lt => true | _ => false end.
Lemma near_table : forallb (fun j => forallb (fun k => (j + k =? 0) || (5 <? j + k) || near j k) [0; 1; 2; 3; 4; 5]) [0; 1; 2; 3; 4; 5] = true.
Proof. vm_compute. reflexivity. Qed.
Lemma near_lt j k : 0 <= j -> 0 <= k -> 1 <= j + k <= 5 -> near j k = true.
Proof.
  intros Hj Hk H. pose proof near_table as T. rewrite forallb_forall in T.
  assert (Ij : In j [0; 1; 2; 3; 4; 5]) by (simpl; lia). assert (Ik : In k [0; 1; 2; 3; 4; 5]) by (simpl; lia).
  specialize (T j Ij). rewrite forallb_forall in T. specialize (T k Ik).
  replace (j + k =? 0) with false in T by lia. replace (5 <? j + k) with false in T by lia. exact T.
Qed.
Lemma qsq (x : Q) : (0 <= x * x)%Q.
Proof. destruct (Qlt_le_dec x 0) as [H|H]; [|nra]. assert (0 <= (- x) * (- x))%Q by nra. lra. Qed.
Lemma sum_over_product p r : (0 <= p)%Q -> (p <= 1)%Q -> (0 <= r)%Q -> (r <= 1)%Q -> (2 * p * r <= p + r)%Q.
Proof. intros. nra. Qed.

Lemma hmean_strict p r : fl p -> fl r -> (p <= 1)%Q -> (r <= 1)%Q -> (0 < p + r)%Q -> ~ (p == 1 /\ r == 1)%Q ->
  (rnd (2 * p * r) < rnd (p + r))%Q.
Proof.
  intros Fp Fr Hp Hr HS NE. pose proof (fl_nonneg p Fp) as P0. pose proof (fl_nonneg r Fr) as R0.
  destruct (Qlt_le_dec (3 # 2) (p + r)) as [L|L].
  - destruct (fl_upper p Fp ltac:(lra) Hp) as (j & Hj & Ep). destruct (fl_upper r Fr ltac:(lra) Hr) as (k & Hk & Er).
    assert (Hm : 1 <= j + k).
    { destruct (Z.eq_dec (j + k) 0) as [Z0|Z0]; [|lia]. exfalso. apply NE. assert (j = 0) by lia. assert (k = 0) by lia. subst j k.
      rewrite Ep, Er. split; ring. }
    destruct (Z.le_gt_cases (j + k) 5) as [S|S].
    + pose proof (near_lt j k Hj Hk ltac:(lia)) as T. unfold near in T. 
      rewrite (rnd_comp (2 * p * r) (2 * (1 - inject_Z j * ulp1) * (1 - inject_Z k * ulp1))) by (rewrite Ep, Er; reflexivity).
      rewrite (rnd_comp (p + r) ((1 - inject_Z j * ulp1) + (1 - inject_Z k * ulp1))) by (rewrite Ep, Er; reflexivity).
      destruct (Qcompare _ _) eqn:C in T; try discriminate. apply Qlt_alt. exact C.
    +       assert (Sq : (6 <= inject_Z j + inject_Z k)%Q) by (change 6%Q with (inject_Z 6); rewrite <- inject_Z_plus, <- Zle_Qle; lia).
      assert (J0 : (0 <= inject_Z j)%Q) by (change 0%Q with (inject_Z 0); rewrite <- Zle_Qle; lia).
      assert (K0 : (0 <= inject_Z k)%Q) by (change 0%Q with (inject_Z 0); rewrite <- Zle_Qle; lia).
      set (a := (inject_Z j * ulp1)%Q) in *. set (b := (inject_Z k * ulp1)%Q) in *.
      assert (A0 : (0 <= a)%Q) by (unfold a; nra). assert (B0 : (0 <= b)%Q) by (unfold b; nra).
      assert (AB : (6 * ulp1 <= a + b)%Q) by (unfold a, b; lra). clearbody a b.
      assert (Hab : (a + b < 1 # 2)%Q) by lra.
      assert (X : (2 * p * r == 2 - 2 * (a + b) + 2 * (a * b))%Q) by (rewrite Ep, Er; ring).
      assert (Y : (p + r == 2 - (a + b))%Q) by (rewrite Ep, Er; ring).
      assert (M : (4 * (a * b) <= (a + b) * (a + b))%Q) by (pose proof (qsq (a - b)); lra).
      assert (M2 : (2 * (a * b) <= (a + b) * (1 # 4))%Q) by nra.
      rewrite (rnd_comp _ _ X), (rnd_comp _ _ Y).
      assert (ab0 : (0 <= a * b)%Q) by nra.
      assert (B1 := rnd_err (2 - 2 * (a + b) + 2 * (a * b)) ltac:(lra)). assert (B2 := rnd_err (2 - (a + b)) ltac:(lra)).
      lra.
  - assert (B1 := rnd_err (2 * p * r) ltac:(nra)). assert (B2 := rnd_err (p + r) ltac:(lra)).
    assert (2 * p * r <= (p + r) * (3 # 4))%Q by (assert (4 * (p * r) <= (p + r) * (p + r))%Q by (pose proof (qsq (p - r)); lra); nra). lra.
Qed.

Lemma hmean_range p r : fl p -> fl r -> (p <= 1)%Q -> (r <= 1)%Q -> (0 <= hmean p r /\ hmean p r <= 1)%Q.
Proof.
  intros Fp Fr Hp Hr. split; [apply rnd_nonneg|]. unfold hmean. apply rnd_le; [exact fl_1|].
  pose proof (fl_nonneg p Fp). pose proof (fl_nonneg r Fr). destruct (Qlt_le_dec 0 (p + r)) as [L|L].
  - apply Qle_shift_div_r; [apply rnd_pos; exact L|]. rewrite Qmult_1_l. apply rnd_mono, sum_over_product; assumption.
  - rewrite (rnd_zero (p + r) L). unfold Qdiv. setoid_replace (/ 0)%Q with 0%Q by reflexivity. lra.
Qed.
(* a quotient of two different 53-bit numbers is not rounded to 1 *)
Lemma below_quotient a b : fl a -> fl b -> (a < b)%Q -> (rnd (a / b) < 1)%Q.
Proof.
  intros (k & e & Hk & Ea) (m & f & Hm & Eb) L.
  assert (Pb : (0 < b)%Q).
  { apply Qle_lt_trans with a; [apply fl_nonneg; exists k, e; split; assumption|exact L]. }
  assert (Q1 : (a <= b * (1 - ulp1))%Q).
  { assert (m0 : 0 < m). { destruct (Z.eq_dec m 0) as [->|]; [|lia]. rewrite Eb in Pb. setoid_replace (inject_Z 0 * pow2 f)%Q with 0%Q in Pb by (unfold inject_Z; ring). lra. }
    (* a normalised form of b *)
    assert (Mb : (inject_Z m <= 9007199254740992)%Q) by (change 9007199254740992%Q with (inject_Z (2 ^ 53)); rewrite <- Zle_Qle; lia).
    destruct (Z.le_ge_cases f e) as [Hf|Hf].
    - assert (P := pow2_add f (e - f) ltac:(lia)). replace (f + (e - f)) with e in P by lia.
      assert (X : (a == inject_Z (k * 2 ^ (e - f)) * pow2 f)%Q) by (rewrite Ea, P, inject_Z_mult; ring).
      pose proof (pow2_pos f) as Pf.
      assert (K : k * 2 ^ (e - f) <= m - 1).
      { assert (G : (inject_Z (k * 2 ^ (e - f)) < inject_Z m)%Q).
        { apply (Qmult_lt_r _ _ (pow2 f) Pf). rewrite <- X, <- Eb. exact L. }
        rewrite <- Zlt_Qlt in G. lia. }
      rewrite Zle_Qle in K. unfold Z.sub in K at 2. rewrite inject_Z_plus in K. change (inject_Z (- (1))) with (-(1))%Q in K.
      rewrite X, Eb. set (u := pow2 f) in *. clearbody u. set (q := inject_Z (k * 2 ^ (e - f))) in *. set (w := inject_Z m) in *. clearbody q w. nra.
    - (* the grid of a is finer: then a <= 2^53 * 2^e *)
      assert (P := pow2_add e (f - e) ltac:(lia)). replace (e + (f - e)) with f in P by lia.
      assert (X : (b == inject_Z (m * 2 ^ (f - e)) * pow2 e)%Q) by (rewrite Eb, P, inject_Z_mult; ring).
      pose proof (pow2_pos e) as Pe. set (M := m * 2 ^ (f - e)) in *.
      assert (K : k <= M - 1).
      { assert (G : (inject_Z k < inject_Z M)%Q).
        { apply (Qmult_lt_r _ _ (pow2 e) Pe). rewrite <- X, <- Ea. exact L. }
        rewrite <- Zlt_Qlt in G. lia. }
      destruct (Z.le_gt_cases M (2 ^ 53)) as [HM|HM].
      + assert (Mq : (inject_Z M <= 9007199254740992)%Q) by (change 9007199254740992%Q with (inject_Z (2 ^ 53)); rewrite <- Zle_Qle; exact HM).
        rewrite Zle_Qle in K. unfold Z.sub in K. rewrite inject_Z_plus in K. change (inject_Z (- (1))) with (-(1))%Q in K.
        rewrite X, Ea. set (u := pow2 e) in *. clearbody u. set (q := inject_Z k) in *. set (w := inject_Z M) in *. clearbody q w. nra.
      + assert (Ev : 2 ^ 53 + 2 <= M).
        { destruct (Z.eq_dec f e) as [->|Hne]; [unfold M in HM; rewrite Z.sub_diag in HM; change (2 ^ 0) with 1 in HM; lia|].
          assert (M = 2 * (m * 2 ^ (f - e - 1))); [|lia]. unfold M. replace (f - e) with (Z.succ (f - e - 1)) at 1 by lia. rewrite Z.pow_succ_r by lia. ring. }
        assert (Mq : (9007199254740994 <= inject_Z M)%Q) by (change 9007199254740994%Q with (inject_Z (2 ^ 53 + 2)); rewrite <- Zle_Qle; lia).
        assert (Kq : (inject_Z k <= 9007199254740992)%Q) by (change 9007199254740992%Q with (inject_Z (2 ^ 53)); rewrite <- Zle_Qle; lia).
        rewrite X, Ea. set (u := pow2 e) in *. clearbody u. set (q := inject_Z k) in *. set (w := inject_Z M) in *. clearbody q w. nra. }
  apply Qle_lt_trans with (1 - ulp1)%Q; [|lra]. apply rnd_le; [exact fl_below_1|]. apply Qle_shift_div_r; [exact Pb|]. lra.
Qed.
Lemma hmean_one p r : fl p -> fl r -> (p <= 1)%Q -> (r <= 1)%Q -> ((hmean p r == 1)%Q <-> (p == 1 /\ r == 1)%Q).
Proof.
  intros Fp Fr Hp Hr. split.
  - intros H. destruct (Qeq_dec p 1) as [Ep|Ep], (Qeq_dec r 1) as [Er|Er]; [split; assumption|exfalso..].
    all: pose proof (fl_nonneg p Fp); pose proof (fl_nonneg r Fr).
    all: destruct (Qlt_le_dec 0 (p + r)) as [L|L].
    all: try (assert (S : (rnd (2 * p * r) < rnd (p + r))%Q) by (apply hmean_strict; try assumption; tauto);
              pose proof (below_quotient _ _ (rnd_fl (2 * p * r)) (rnd_fl (p + r)) S) as G; unfold hmean in H; lra).
    all: unfold hmean in H; rewrite (rnd_zero (p + r) L) in H; rewrite (rnd_comp _ 0) in H by (unfold Qdiv; setoid_replace (/ 0)%Q with 0%Q by reflexivity; ring); 
         rewrite (rnd_zero 0) in H by lra; lra.
  - intros [Ep Er]. rewrite (hmean_wd p r 1 1 Ep Er). vm_compute. reflexivity.
Qed.
Lemma hmean_zero p r : (0 <= p)%Q -> (0 <= r)%Q -> ((hmean p r == 0)%Q <-> (p == 0 \/ r == 0)%Q).
Proof.
  intros Hp Hr. unfold hmean. rewrite rnd_zero_iff. split.
  - intros H. destruct (Qlt_le_dec 0 p) as [P|P]; [|left; lra]. destruct (Qlt_le_dec 0 r) as [R|R]; [|right; lra]. exfalso.
    assert (A : (0 < rnd (2 * p * r))%Q) by (apply rnd_pos; nra). assert (B : (0 < rnd (p + r))%Q) by (apply rnd_pos; lra).
    assert (C : (0 < rnd (2 * p * r) / rnd (p + r))%Q) by (apply Qlt_shift_div_l; [exact B|lra]). lra.
  - intros H. rewrite (rnd_zero (2 * p * r)) by (destruct H as [E|E]; rewrite E; lra). unfold Qdiv. rewrite Qmult_0_l. lra.
Qed.
(* error of the rounded harmonic mean of rounded values *)
Lemma hmean_err P R p r : (0 < P)%Q -> (0 < R)%Q ->
  (P * (1 - ulp1) <= p)%Q -> (p <= P * (1 + ulp1))%Q -> (R * (1 - ulp1) <= r)%Q -> (r <= R * (1 + ulp1))%Q ->
  let F := (2 * P * R / (P + R))%Q in (F * (1 - 5 * ulp1) <= hmean p r /\ hmean p r <= F * (1 + 5 * ulp1))%Q.
Proof.
  intros HP HR p1 p2 r1 r2 F. unfold hmean. assert (p0 : (0 < p)%Q) by nra. assert (r0 : (0 < r)%Q) by nra.
  assert (HF : (F * (P + R) == 2 * P * R)%Q) by (unfold F; field; lra).
  assert (F0 : (0 < F)%Q) by (unfold F; apply Qlt_shift_div_l; nra). clearbody F.
  set (G := (2 * p * r / (p + r))%Q). assert (HG : (G * (p + r) == 2 * p * r)%Q) by (unfold G; field; lra).
  assert (G1 : (G <= F * (1 + ulp1))%Q).
  { unfold G. apply Qle_shift_div_r; [lra|]. apply (Qmult_lt_0_le_reg_r _ _ (P + R)); [lra|].
    setoid_replace (F * (1 + ulp1) * (p + r) * (P + R))%Q with (F * (P + R) * (1 + ulp1) * (p + r))%Q by ring. rewrite HF.
    assert (A : (p * (r * R) <= P * (1 + ulp1) * (r * R))%Q) by (apply Qmult_le_compat_r; [exact p2|nra]).
    assert (B : (r * (p * P) <= R * (1 + ulp1) * (p * P))%Q) by (apply Qmult_le_compat_r; [exact r2|nra]). lra. }
  assert (G2 : (F * (1 - ulp1) <= G)%Q).
  { unfold G. apply Qle_shift_div_l; [lra|]. apply (Qmult_lt_0_le_reg_r _ _ (P + R)); [lra|].
    setoid_replace (F * (1 - ulp1) * (p + r) * (P + R))%Q with (F * (P + R) * (1 - ulp1) * (p + r))%Q by ring. rewrite HF.
    assert (A : (P * (1 - ulp1) * (r * R) <= p * (r * R))%Q) by (apply Qmult_le_compat_r; [exact p1|nra]).
    assert (B : (R * (1 - ulp1) * (p * P) <= r * (p * P))%Q) by (apply Qmult_le_compat_r; [exact r1|nra]). lra. }
  destruct (rnd_err (2 * p * r) ltac:(nra)) as [N1 N2]. destruct (rnd_err (p + r) ltac:(lra)) as [S1 S2].
  assert (S0 : (0 < rnd (p + r))%Q) by (apply rnd_pos; lra). assert (N0 : (0 < rnd (2 * p * r))%Q) by (apply rnd_pos; nra).
  set (n := rnd (2 * p * r)) in *. set (s := rnd (p + r)) in *. set (D := (p + r)%Q) in *. assert (D0 : (0 < D)%Q) by (unfold D; lra).
  rewrite <- HG in N1, N2. clearbody n s D G.
  set (x := (n / s)%Q). assert (Hx : (x * s == n)%Q) by (unfold x; field; lra). assert (x0 : (0 < x)%Q) by (unfold x; apply Qlt_shift_div_l; lra).
  assert (X1 : (x * (1 - ulp1) <= G * (1 + ulp1))%Q).
  { apply (Qmult_lt_0_le_reg_r _ _ D); [exact D0|].
    setoid_replace (x * (1 - ulp1) * D)%Q with (x * (D * (1 - ulp1)))%Q by ring.
    apply Qle_trans with (x * s)%Q; [rewrite !(Qmult_comm x); apply Qmult_le_compat_r; [exact S1|lra]|]. rewrite Hx. lra. }
  assert (X2 : (G * (1 - ulp1) <= x * (1 + ulp1))%Q).
  { apply (Qmult_lt_0_le_reg_r _ _ D); [exact D0|].
    setoid_replace (x * (1 + ulp1) * D)%Q with (x * (D * (1 + ulp1)))%Q by ring.
    apply Qle_trans with (x * s)%Q; [rewrite Hx; lra|]. rewrite !(Qmult_comm x); apply Qmult_le_compat_r; [exact S2|lra]. }
  destruct (rnd_err x ltac:(lra)) as [R1 R2]. split; lra.
Qed.
