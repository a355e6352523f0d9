(* Rounding to binary64 and the recall bins (C48). *)
From Verif Require Import Prelude Counting CacheModel ClsModel DetModel DetFlowModel DetReportModel FloatModel.
From Coq Require Import Lia String QArith Qround Qabs Qminmax Lqa.
Local Open Scope Z_scope.

Lemma nearest_even_half n d : 0 < d -> 2 * Z.abs (nearest_even n d * d - n) <= d.
Proof.
  intros Hd. unfold nearest_even. pose proof (Z.div_mod n d ltac:(lia)) as E. pose proof (Z.mod_pos_bound n d Hd) as B.
  set (q := n / d) in *. set (r := n mod d) in *. rewrite E.
  destruct (2 * r <? d) eqn:H1; [apply Z.ltb_lt in H1; replace (q * d - (d * q + r)) with (- r) by ring; lia|].
  apply Z.ltb_ge in H1.
  destruct (d <? 2 * r) eqn:H2; [apply Z.ltb_lt in H2; replace ((q + 1) * d - (d * q + r)) with (d - r) by ring; lia|].
  apply Z.ltb_ge in H2. destruct (Z.even q).
  - replace (q * d - (d * q + r)) with (- r) by ring; lia.
  - replace ((q + 1) * d - (d * q + r)) with (d - r) by ring; lia.
Qed.

(* nearest among the integers *)
Lemma nearest_even_best n d k : 0 < d -> Z.abs (nearest_even n d * d - n) <= Z.abs (k * d - n).
Proof.
  intros Hd. pose proof (nearest_even_half n d Hd) as H. set (m := nearest_even n d) in *.
  destruct (Z.eq_dec k m) as [->|Hk]; [lia|].
  assert (d <= Z.abs (k * d - m * d)).
  { replace (k * d - m * d) with ((k - m) * d) by ring. rewrite Z.abs_mul. rewrite (Z.abs_eq d) by lia. nia. }
  lia.
Qed.

(* a tie goes to the even neighbour *)
Lemma nearest_even_tie n d : 0 < d -> 2 * Z.abs (nearest_even n d * d - n) = d -> Z.even (nearest_even n d) = true.
Proof.
  intros Hd. unfold nearest_even. pose proof (Z.div_mod n d ltac:(lia)) as E. pose proof (Z.mod_pos_bound n d Hd) as B.
  set (q := n / d) in *. set (r := n mod d) in *. rewrite E.
  destruct (2 * r <? d) eqn:H1; [apply Z.ltb_lt in H1; replace (q * d - (d * q + r)) with (- r) by ring; lia|].
  apply Z.ltb_ge in H1.
  destruct (d <? 2 * r) eqn:H2; [apply Z.ltb_lt in H2; replace ((q + 1) * d - (d * q + r)) with (d - r) by ring; lia|].
  intros _. destruct (Z.even q) eqn:Hq; [exact Hq|]. rewrite Z.even_add, Hq. reflexivity.
Qed.

Lemma scale_up_pos s : 0 < scale_up s.
Proof. unfold scale_up. apply Z.pow_pos_nonneg; lia. Qed.

(* moving a factor 2^s from one side to the other *)
Lemma scale_step a b s : a * scale_up (s + 1) * scale_up (- s) * b = 2 * (a * scale_up s * scale_up (- (s + 1)) * b).
Proof.
  unfold scale_up. destruct (Z.lt_ge_cases s 0) as [H|H].
  - rewrite (Z.max_r (s + 1)), (Z.max_r s), (Z.max_l (- s)), (Z.max_l (- (s + 1))) by lia.
    replace (- s) with (Z.succ (- (s + 1))) by lia. rewrite Z.pow_succ_r by lia. ring.
  - rewrite (Z.max_l (s + 1)), (Z.max_l s), (Z.max_r (- s)), (Z.max_r (- (s + 1))) by lia.
    replace (s + 1) with (Z.succ s) by lia. rewrite Z.pow_succ_r by lia. ring.
Qed.

(* the scaled numerator has 53 bits before the fraction *)
Definition shift_of (n d : Z) : Z :=
  let s0 := 52 + Z.log2 d - Z.log2 n in
  if n * scale_up s0 <? 2 ^ 52 * (d * scale_up (- s0)) then s0 + 1 else s0.

Lemma shift_zero n d s k : 0 < n -> 0 < d -> 0 <= k -> s = k + Z.log2 d - Z.log2 n ->
  2 ^ k * (d * scale_up (- s)) < 2 * (n * scale_up s) /\ n * scale_up s < 2 ^ (k + 1) * (d * scale_up (- s)).
Proof.
  intros Hn Hd Hk Hs. pose proof (Z.log2_spec n Hn) as [N1 N2]. pose proof (Z.log2_spec d Hd) as [D1 D2].
  pose proof (Z.log2_nonneg n). pose proof (Z.log2_nonneg d). set (a := Z.log2 n) in *. set (b := Z.log2 d) in *.
  rewrite Z.pow_succ_r in N2, D2 by lia. rewrite Z.pow_add_r by lia. change (2 ^ 1) with 2.
  unfold scale_up. destruct (Z.le_ge_cases 0 s) as [H1|H1].
  - rewrite (Z.max_l s), (Z.max_r (- s)) by lia. change (2 ^ 0) with 1. rewrite Z.mul_1_r.
    assert (E : 2 ^ a * 2 ^ s = 2 ^ k * 2 ^ b) by (rewrite <- !Z.pow_add_r by lia; f_equal; lia).
    pose proof (Z.pow_pos_nonneg 2 s ltac:(lia) H1). pose proof (Z.pow_pos_nonneg 2 k ltac:(lia) Hk).
    split; nia.
  - rewrite (Z.max_r s), (Z.max_l (- s)) by lia. change (2 ^ 0) with 1. rewrite Z.mul_1_r.
    assert (E : 2 ^ a = 2 ^ k * 2 ^ b * 2 ^ (- s)) by (rewrite <- !Z.pow_add_r by lia; f_equal; lia).
    pose proof (Z.pow_pos_nonneg 2 (- s) ltac:(lia) ltac:(lia)). pose proof (Z.pow_pos_nonneg 2 k ltac:(lia) Hk).
    assert (0 < 2 ^ k * 2 ^ (- s)) by nia.
    split; nia.
Qed.

Lemma scale_next_up n s : 0 <= s -> n * scale_up (s + 1) = 2 * (n * scale_up s) /\ scale_up (- (s + 1)) = scale_up (- s).
Proof.
  intros H. unfold scale_up. rewrite (Z.max_l (s + 1)), (Z.max_l s), (Z.max_r (- s)), (Z.max_r (- (s + 1))) by lia.
  replace (s + 1) with (Z.succ s) by lia. rewrite Z.pow_succ_r by lia. split; ring.
Qed.
Lemma scale_next_dn d s : s < 0 -> d * scale_up (- s) = 2 * (d * scale_up (- (s + 1))) /\ scale_up (s + 1) = scale_up s.
Proof.
  intros H. unfold scale_up. rewrite (Z.max_r (s + 1)), (Z.max_r s), (Z.max_l (- s)), (Z.max_l (- (s + 1))) by lia.
  replace (- s) with (Z.succ (- (s + 1))) by lia. rewrite Z.pow_succ_r by lia. split; ring.
Qed.

Lemma shift_of_spec n d : 0 < n -> 0 < d ->
  2 ^ 52 * (d * scale_up (- shift_of n d)) <= n * scale_up (shift_of n d) < 2 ^ 53 * (d * scale_up (- shift_of n d)).
Proof.
  intros Hn Hd. unfold shift_of. set (s0 := 52 + Z.log2 d - Z.log2 n).
  destruct (shift_zero n d s0 52 Hn Hd ltac:(lia) eq_refl) as [A B]. change (2 ^ (52 + 1)) with (2 ^ 53) in B.
  destruct (Z.ltb_spec (n * scale_up s0) (2 ^ 52 * (d * scale_up (- s0)))) as [H|H]; [|split; [exact H|exact B]].
  change (2 ^ 53) with (2 * 2 ^ 52). destruct (Z.le_ge_cases 0 s0) as [H0|H0].
  - destruct (scale_next_up n s0 H0) as [E1 E2]. rewrite E1, E2. lia.
  - destruct (Z.eq_dec s0 0) as [E0|E0].
    + destruct (scale_next_up n s0 ltac:(lia)) as [E1 E2]. rewrite E1, E2. lia.
    + destruct (scale_next_dn d s0 ltac:(lia)) as [E1 E2]. rewrite E2. rewrite E1 in A, H. lia.
Qed.

Lemma rnd_comp x y : (x == y)%Q -> rnd x = rnd y.
Proof. intros H. unfold rnd. rewrite (Qred_complete x y H). reflexivity. Qed.

(* ------------------------------------------------------------------ *)
(** * [rnd] rounds to the nearest 53-bit number *)

Lemma Qnum_pos x : (0 < x)%Q -> 0 < Qnum x.
Proof. unfold Qlt. simpl. lia. Qed.

Definition pow2 (e : Z) : Q := (inject_Z (scale_up e) / inject_Z (scale_up (- e)))%Q.
Lemma inject_pos z : 0 < z -> (0 < inject_Z z)%Q.
Proof. unfold Qlt. simpl. lia. Qed.
Lemma pow2_pos e : (0 < pow2 e)%Q.
Proof. unfold pow2. apply Qlt_shift_div_l; [apply inject_pos, scale_up_pos|]. rewrite Qmult_0_l. apply inject_pos, scale_up_pos. Qed.
Lemma scale_up_0 s : s <= 0 -> scale_up s = 1.
Proof. intros H. unfold scale_up. rewrite Z.max_r by lia. reflexivity. Qed.
Lemma scale_up_add a b : 0 <= a -> 0 <= b -> scale_up (a + b) = scale_up a * scale_up b.
Proof. intros Ha Hb. unfold scale_up. rewrite !Z.max_l by lia. apply Z.pow_add_r; lia. Qed.

(* 2^(e+k) = 2^e * 2^k for k >= 0 *)
Lemma pow2_add e k : 0 <= k -> (pow2 (e + k) == pow2 e * inject_Z (2 ^ k))%Q.
Proof.
  intros Hk. unfold pow2. pose proof (scale_up_pos (- e)). pose proof (scale_up_pos (- (e + k))).
  assert (E : scale_up (e + k) * scale_up (- e) = scale_up e * 2 ^ k * scale_up (- (e + k))).
  { replace (2 ^ k) with (scale_up k) by (unfold scale_up; rewrite Z.max_l by lia; reflexivity).
    destruct (Z.le_ge_cases 0 e) as [He|He].
    - rewrite (scale_up_0 (- e)), (scale_up_0 (- (e + k))), scale_up_add by lia. ring.
    - rewrite (scale_up_0 e) by lia. destruct (Z.le_ge_cases 0 (e + k)) as [Hek|Hek].
      + rewrite (scale_up_0 (- (e + k))) by lia. replace k with ((e + k) + (- e)) at 2 by lia. rewrite (scale_up_add (e + k) (- e)) by lia. ring.
      + rewrite (scale_up_0 (e + k)) by lia. replace (- e) with (k + - (e + k)) at 1 by lia. rewrite (scale_up_add k (- (e + k))) by lia. ring. }
  apply (f_equal inject_Z) in E. rewrite !inject_Z_mult in E.
  assert (~ (inject_Z (scale_up (- e)) == 0)%Q) by (unfold Qeq; simpl; lia).
  assert (~ (inject_Z (scale_up (- (e + k))) == 0)%Q) by (unfold Qeq; simpl; lia).
  apply (Qmult_inj_r _ _ (inject_Z (scale_up (- e)) * inject_Z (scale_up (- (e + k))))%Q).
  - intros H3. apply Qmult_integral in H3. tauto.
  - transitivity (inject_Z (scale_up (e + k)) * inject_Z (scale_up (- e)))%Q; [field; repeat split; assumption|]. rewrite E. field; repeat split; assumption.
Qed.

(* x > 0 is N/D * 2^-s with 2^52 <= N/D < 2^53, and rnd x = m * 2^-s with m nearest *)
Lemma rnd_form x : (0 < x)%Q -> exists N D s m,
  0 < D /\ 2 ^ 52 * D <= N < 2 ^ 53 * D /\ (x == inject_Z N / inject_Z D * pow2 (- s))%Q /\
  m = nearest_even N D /\ (rnd x == inject_Z m * pow2 (- s))%Q.
Proof.
  intros Hx. assert (Hr : (0 < Qred x)%Q) by (rewrite Qred_correct; exact Hx).
  set (n := Qnum (Qred x)). set (d := Zpos (Qden (Qred x))). assert (Hn : 0 < n) by (apply Qnum_pos; exact Hr).
  assert (Hd : 0 < d) by (unfold d; lia).
  exists (n * scale_up (shift_of n d)), (d * scale_up (- shift_of n d)), (shift_of n d).
  eexists. pose proof (shift_of_spec n d Hn Hd) as HS. pose proof (scale_up_pos (- shift_of n d)) as P1. pose proof (scale_up_pos (shift_of n d)) as P2.
  split; [nia|]. split; [exact HS|]. split; [|split; [reflexivity|]].
  - rewrite <- (Qred_correct x) at 1. transitivity (inject_Z n / inject_Z d)%Q.
    + unfold n, d. destruct (Qred x) as [a b]. simpl. unfold Qdiv. rewrite Qmake_Qdiv. reflexivity.
    + unfold pow2. rewrite !inject_Z_mult. replace (- - shift_of n d) with (shift_of n d) by lia.
      field. repeat split; unfold Qeq; simpl; lia.
  - unfold rnd. fold n. fold d. replace (n <=? 0) with false by lia. fold (shift_of n d).
    change (if n * scale_up (52 + Z.log2 d - Z.log2 n) <? 2 ^ 52 * (d * scale_up (- (52 + Z.log2 d - Z.log2 n)))
            then 52 + Z.log2 d - Z.log2 n + 1 else 52 + Z.log2 d - Z.log2 n) with (shift_of n d).
    unfold pow2. rewrite inject_Z_mult. replace (- - shift_of n d) with (shift_of n d) by lia. field. unfold Qeq; simpl; lia.
Qed.

Lemma Qabs_scale (a : Q) (k : Z) : 0 < k -> (Qabs (a * inject_Z k) == Qabs a * inject_Z k)%Q.
Proof. intros H. rewrite Qabs_Qmult. rewrite (Qabs_pos (inject_Z k)); [reflexivity|]. unfold Qle. simpl. lia. Qed.
Lemma Qabs_inject z : (Qabs (inject_Z z) == inject_Z (Z.abs z))%Q.
Proof. reflexivity. Qed.

Lemma nearest_even_bounds N D : 0 < D -> 2 ^ 52 * D <= N < 2 ^ 53 * D -> 2 ^ 52 <= nearest_even N D <= 2 ^ 53.
Proof.
  intros HD HN. pose proof (nearest_even_half N D HD) as H. set (m := nearest_even N D) in *. clearbody m.
  set (c := 2 ^ 52) in *. change (2 ^ 53) with (2 * c) in *. clearbody c. split.
  - destruct (Z.le_gt_cases c m) as [G|G]; [exact G|]. assert (m * D <= (c - 1) * D) by nia. lia.
  - destruct (Z.le_gt_cases m (2 * c)) as [G|G]; [exact G|]. assert ((2 * c + 1) * D <= m * D) by nia. lia.
Qed.

(* the result is a number of 53 bits; nothing of 53 bits is nearer *)
Theorem rnd_format x : (0 < x)%Q -> exists m s, 2 ^ 52 <= m <= 2 ^ 53 /\ (rnd x == inject_Z m * pow2 s)%Q.
Proof.
  intros Hx. destruct (rnd_form x Hx) as (N & D & s & m & HD & HN & Ex & Em & Er).
  exists m, (- s). split; [|exact Er]. rewrite Em. apply nearest_even_bounds; assumption.
Qed.

Lemma frac_dist k N D : 0 < D -> (Qabs (inject_Z k - inject_Z N / inject_Z D) == inject_Z (Z.abs (k * D - N)) / inject_Z D)%Q.
Proof.
  intros HD. assert (H : ~ (inject_Z D == 0)%Q) by (unfold Qeq; simpl; lia).
  transitivity (Qabs (inject_Z (k * D - N) / inject_Z D)).
  - apply Qabs_wd. unfold Z.sub. rewrite inject_Z_plus, inject_Z_opp, inject_Z_mult. field. exact H.
  - unfold Qdiv at 1. rewrite Qabs_Qmult, Qabs_inject. rewrite (Qabs_pos (/ inject_Z D)); [reflexivity|].
    apply Qinv_le_0_compat. unfold Qle. simpl. lia.
Qed.

Theorem rnd_nearest x : (0 < x)%Q -> forall k e, Z.abs k <= 2 ^ 53 -> (Qabs (rnd x - x) <= Qabs (inject_Z k * pow2 e - x))%Q.
Proof.
  intros Hx k e Hk. destruct (rnd_form x Hx) as (N & D & s & m & HD & HN & Ex & Em & Er).
  set (f := (inject_Z N / inject_Z D)%Q) in *. set (u := pow2 (- s)) in *. assert (Hu : (0 < u)%Q) by apply pow2_pos.
  assert (HDq : (0 < inject_Z D)%Q) by (apply inject_pos; exact HD).
  assert (Best : forall j, (Qabs (inject_Z m - f) <= Qabs (inject_Z j - f))%Q).
  { intros j. unfold f. rewrite !frac_dist by exact HD. apply Qmult_le_compat_r; [|apply Qinv_le_0_compat, Qlt_le_weak; exact HDq].
    rewrite <- Zle_Qle. rewrite Em. apply nearest_even_best. exact HD. }
  assert (L : (Qabs (rnd x - x) == Qabs (inject_Z m - f) * u)%Q).
  { rewrite Er, Ex. setoid_replace (inject_Z m * u - f * u)%Q with ((inject_Z m - f) * u)%Q by ring.
    rewrite Qabs_Qmult, (Qabs_pos u); [reflexivity|apply Qlt_le_weak; exact Hu]. }
  rewrite L.
  destruct (Z.le_ge_cases (- s) e) as [He|He].
  - assert (Ek : (inject_Z k * pow2 e == inject_Z (k * 2 ^ (e + s)) * u)%Q).
    { replace e with (- s + (e + s)) at 1 by lia. rewrite pow2_add by lia. fold u. rewrite inject_Z_mult. ring. }
    rewrite Ek, Ex. setoid_replace (inject_Z (k * 2 ^ (e + s)) * u - f * u)%Q with ((inject_Z (k * 2 ^ (e + s)) - f) * u)%Q by ring.
    rewrite Qabs_Qmult, (Qabs_pos u) by (apply Qlt_le_weak; exact Hu).
    apply Qmult_le_compat_r; [apply Best|apply Qlt_le_weak; exact Hu].
  - destruct (Z.eq_dec e (- s)) as [->|Hne].
    { fold u. rewrite Ex. setoid_replace (inject_Z k * u - f * u)%Q with ((inject_Z k - f) * u)%Q by ring.
      rewrite Qabs_Qmult, (Qabs_pos u) by (apply Qlt_le_weak; exact Hu).
      apply Qmult_le_compat_r; [apply Best|apply Qlt_le_weak; exact Hu]. }
    (* below the grid of x: at most 2^52 * u <= x *)
    assert (Hpe : (pow2 e <= u * (1 # 2))%Q).
    { assert (E := pow2_add e (- s - e) ltac:(lia)). replace (e + (- s - e)) with (- s) in E by lia. fold u in E.
      assert (2 <= 2 ^ (- s - e)) by (change 2 with (2 ^ 1) at 1; apply Z.pow_le_mono_r; lia).
      assert (H2 : (2 <= inject_Z (2 ^ (- s - e)))%Q) by (change 2%Q with (inject_Z 2); rewrite <- Zle_Qle; assumption).
      pose proof (pow2_pos e) as Hp. rewrite E. nra. }
    assert (Hy : (inject_Z k * pow2 e <= inject_Z (2 ^ 52) * u)%Q).
    { assert (Hk2 : (inject_Z k <= inject_Z (2 ^ 53))%Q) by (rewrite <- Zle_Qle; lia).
      change (inject_Z (2 ^ 53)) with (9007199254740992 # 1)%Q in Hk2. change (inject_Z (2 ^ 52)) with (4503599627370496 # 1)%Q.
      pose proof (pow2_pos e) as Hp.
      apply Qle_trans with ((9007199254740992 # 1) * pow2 e)%Q; [apply Qmult_le_compat_r; [exact Hk2|apply Qlt_le_weak; exact Hp]|]. lra. }
    assert (Hf : (inject_Z (2 ^ 52) <= f)%Q).
    { unfold f. apply Qle_shift_div_l; [exact HDq|]. rewrite <- inject_Z_mult, <- Zle_Qle. lia. }
    assert (B := Best (2 ^ 52)). rewrite (Qabs_neg (inject_Z (2 ^ 52) - f)) in B by lra.
    assert (Hx2 : (inject_Z (2 ^ 52) * u <= x)%Q) by (rewrite Ex; apply Qmult_le_compat_r; [exact Hf|apply Qlt_le_weak; exact Hu]).
    rewrite (Qabs_neg (inject_Z k * pow2 e - x)) by lra.
    apply Qle_trans with (- (inject_Z (2 ^ 52) - f) * u)%Q; [apply Qmult_le_compat_r; [exact B|apply Qlt_le_weak; exact Hu]|].
    rewrite Ex in *. lra.
Qed.

(* within half a unit in the last place, and at a tie the last bit is zero *)
Theorem rnd_ties x : (0 < x)%Q -> exists m s, 2 ^ 52 <= m <= 2 ^ 53 /\ (rnd x == inject_Z m * pow2 s)%Q /\
  (2 * Qabs (rnd x - x) <= pow2 s)%Q /\ ((2 * Qabs (rnd x - x) == pow2 s)%Q -> Z.even m = true).
Proof.
  intros Hx. destruct (rnd_form x Hx) as (N & D & s & m & HD & HN & Ex & Em & Er).
  exists m, (- s). split; [rewrite Em; apply nearest_even_bounds; assumption|]. split; [exact Er|].
  set (u := pow2 (- s)) in *. assert (Hu : (0 < u)%Q) by apply pow2_pos.
  assert (HDq : (0 < inject_Z D)%Q) by (apply inject_pos; exact HD).
  assert (L : (Qabs (rnd x - x) == inject_Z (Z.abs (m * D - N)) / inject_Z D * u)%Q).
  { rewrite <- frac_dist by exact HD. rewrite Er, Ex. setoid_replace (inject_Z m * u - inject_Z N / inject_Z D * u)%Q with ((inject_Z m - inject_Z N / inject_Z D) * u)%Q by ring.
    rewrite Qabs_Qmult, (Qabs_pos u); [reflexivity|apply Qlt_le_weak; exact Hu]. }
  assert (E : (2 * Qabs (rnd x - x) == inject_Z (2 * Z.abs (m * D - N)) / inject_Z D * u)%Q) by (rewrite L, inject_Z_mult; field; intros H0; rewrite H0 in HDq; discriminate HDq).
  rewrite E. assert (H := nearest_even_half N D HD). rewrite <- Em in H. split.
  - setoid_replace u with (1 * u)%Q at 2 by ring. apply Qmult_le_compat_r; [|apply Qlt_le_weak; exact Hu].
    apply Qle_shift_div_r; [exact HDq|]. rewrite Qmult_1_l, <- Zle_Qle. exact H.
  - intros T. rewrite Em. apply (nearest_even_tie N D HD). rewrite <- Em.
    assert (T1 : (inject_Z (2 * Z.abs (m * D - N)) / inject_Z D == 1)%Q).
    { apply (Qmult_inj_r _ _ u); [intros H0; rewrite H0 in Hu; discriminate Hu|]. rewrite T. ring. }
    assert (T2 : (inject_Z (2 * Z.abs (m * D - N)) == inject_Z D)%Q).
    { transitivity (inject_Z (2 * Z.abs (m * D - N)) / inject_Z D * inject_Z D)%Q; [field; intros H0; rewrite H0 in HDq; discriminate HDq|]. rewrite T1. ring. }
    unfold Qeq, inject_Z in T2. cbn [Qnum Qden] in T2. lia.
Qed.

(* relative error *)
Lemma rnd_rel x : (0 < x)%Q -> (Qabs (rnd x - x) <= x * (1 # 9007199254740992))%Q.
Proof.
  intros Hx. destruct (rnd_form x Hx) as (N & D & s & m & HD & HN & Ex & Em & Er).
  set (u := pow2 (- s)) in *. assert (Hu : (0 < u)%Q) by apply pow2_pos.
  assert (HDq : (0 < inject_Z D)%Q) by (apply inject_pos; exact HD).
  assert (H := nearest_even_half N D HD). rewrite <- Em in H.
  assert (H1 : (Qabs (inject_Z m - inject_Z N / inject_Z D) <= (1 # 2))%Q).
  { rewrite frac_dist by exact HD. apply Qle_shift_div_r; [exact HDq|]. unfold Qle, Qmult, inject_Z. cbn [Qnum Qden].
    change (Zpos (2 * 1)) with 2. change (Zpos 1) with 1. lia. }
  assert (H2 : (4503599627370496 <= inject_Z N / inject_Z D)%Q).
  { apply Qle_shift_div_l; [exact HDq|]. change 4503599627370496%Q with (inject_Z 4503599627370496). rewrite <- inject_Z_mult, <- Zle_Qle. 
    change (2 ^ 52) with 4503599627370496 in HN. lia. }
  set (f := (inject_Z N / inject_Z D)%Q) in *.
  rewrite Er, Ex. setoid_replace (inject_Z m * u - f * u)%Q with ((inject_Z m - f) * u)%Q by ring.
  rewrite Qabs_Qmult, (Qabs_pos u) by (apply Qlt_le_weak; exact Hu).
  setoid_replace (f * u * (1 # 9007199254740992))%Q with ((f * (1 # 9007199254740992)) * u)%Q by ring.
  apply Qmult_le_compat_r; [|apply Qlt_le_weak; exact Hu]. lra.
Qed.

Lemma rnd_pos x : (0 < x)%Q -> (0 < rnd x)%Q.
Proof.
  intros Hx. assert (H := rnd_rel x Hx). apply Qabs_Qle_condition in H. destruct H as [H _].
  lra.
Qed.

(* ------------------------------------------------------------------ *)
(** * The bins *)

Definition ebin (tp n : nat) : nat := (100 * tp / n)%nat.
Definition lost (k : nat) : bool := Nat.eqb k 29 || Nat.eqb k 57 || Nat.eqb k 58.

Lemma floor_in q z : (inject_Z z <= q)%Q -> (q < inject_Z (z + 1))%Q -> Qfloor q = z.
Proof.
  intros H1 H2. pose proof (Qfloor_le q) as A. pose proof (Qlt_floor q) as B.
  assert (X := Qle_lt_trans _ _ _ A H2). rewrite <- Zlt_Qlt in X.
  assert (Y := Qle_lt_trans _ _ _ H1 B). rewrite <- Zlt_Qlt in Y. lia.
Qed.

Lemma qnat_pos n : (0 < n)%nat -> (0 < qnat n)%Q.
Proof. intros H. unfold qnat. apply inject_pos. lia. Qed.

Definition fval (tp n : nat) : Q := rnd (rnd (qnat tp / qnat n) * 100).
Lemma fbin_fval tp n : (0 < n)%nat -> fbin tp n = Z.to_nat (Qfloor (fval tp n)).
Proof. intros H. unfold fbin, frecall, fval. destruct n; [lia|reflexivity]. Qed.

Lemma fval_close tp n : (0 < tp <= n)%nat ->
  (Qabs (fval tp n - qnat (100 * tp) / qnat n) <= (1 # 20000000000000))%Q.
Proof.
  intros H. assert (Hn : (0 < qnat n)%Q) by (apply qnat_pos; lia).
  set (x := (qnat tp / qnat n)%Q). assert (Hx : (0 < x)%Q).
  { apply Qlt_shift_div_l; [exact Hn|]. rewrite Qmult_0_l. apply qnat_pos. lia. }
  assert (Hx1 : (x <= 1)%Q).
  { apply Qle_shift_div_r; [exact Hn|]. rewrite Qmult_1_l. unfold qnat. rewrite <- Zle_Qle. lia. }
  assert (E : (qnat (100 * tp) / qnat n == x * 100)%Q).
  { unfold x, qnat. rewrite Nat2Z.inj_mul, inject_Z_mult. change (inject_Z (Z.of_nat 100)) with 100%Q. field. unfold Qeq. simpl. lia. }
  rewrite E. unfold fval. fold x.
  assert (R1 := rnd_rel x Hx). assert (P1 := rnd_pos x Hx).
  assert (Hr : (0 < rnd x * 100)%Q) by lra. assert (R2 := rnd_rel _ Hr).
  set (r := rnd x) in *. set (v := rnd (r * 100)) in *. clearbody v r. clearbody x.
  apply Qabs_Qle_condition in R1. apply Qabs_Qle_condition in R2. apply Qabs_Qle_condition.
  split; lra.
Qed.

Lemma fbin_zero n : fbin 0 n = 0%nat.
Proof.
  unfold fbin, frecall. destruct n as [|n]; [reflexivity|].
  rewrite (rnd_comp (qnat 0 / qnat (S n)) 0); [reflexivity|]. unfold qnat. change (inject_Z (Z.of_nat 0)) with 0%Q.
  unfold Qdiv. rewrite Qmult_0_l. reflexivity.
Qed.

(* not a multiple of a hundredth *)
Lemma fbin_inside tp n : (0 < tp <= n)%nat -> Z.of_nat n <= 2 ^ 44 -> (forall k, 100 * tp <> k * n)%nat -> fbin tp n = ebin tp n.
Proof.
  intros H Hn Hk. rewrite fbin_fval by lia. unfold ebin. set (b := (100 * tp / n)%nat).
  assert (D := Nat.div_mod (100 * tp) n ltac:(lia)). fold b in D. assert (M := Nat.mod_upper_bound (100 * tp) n ltac:(lia)).
  set (r := (100 * tp mod n)%nat) in *.
  assert (Hr : (0 < r)%nat). { destruct r; [|lia]. exfalso. apply (Hk b). lia. }
  assert (C := fval_close tp n H). apply Qabs_Qle_condition in C.
  assert (Hq : (0 < qnat n)%Q) by (apply qnat_pos; lia).
  assert (Small : ((1 # 20000000000000) < 1 / qnat n)%Q).
  { apply Qlt_shift_div_l; [exact Hq|]. unfold qnat, Qlt, Qmult, inject_Z. cbn [Qnum Qden]. change (2 ^ 44) with 17592186044416 in Hn. lia. }
  assert (L : (inject_Z (Z.of_nat b) + 1 / qnat n <= qnat (100 * tp) / qnat n)%Q).
  { apply Qle_shift_div_l; [exact Hq|]. setoid_replace ((inject_Z (Z.of_nat b) + 1 / qnat n) * qnat n)%Q with (inject_Z (Z.of_nat b) * qnat n + 1)%Q by (field; intros G; rewrite G in Hq; discriminate Hq).
    unfold qnat. change 1%Q with (inject_Z 1). rewrite <- inject_Z_mult, <- inject_Z_plus, <- Zle_Qle. nia. }
  assert (U : (qnat (100 * tp) / qnat n <= inject_Z (Z.of_nat b + 1) - 1 / qnat n)%Q).
  { apply Qle_shift_div_r; [exact Hq|]. setoid_replace ((inject_Z (Z.of_nat b + 1) - 1 / qnat n) * qnat n)%Q with (inject_Z (Z.of_nat b + 1) * qnat n + - (1))%Q by (field; intros G; rewrite G in Hq; discriminate Hq).
    unfold qnat. change (- (1))%Q with (inject_Z (- (1))). rewrite <- inject_Z_mult, <- inject_Z_plus, <- Zle_Qle. nia. }
  rewrite (floor_in (fval tp n) (Z.of_nat b)); [apply Nat2Z.id|lra|lra].
Qed.

(* a multiple of a hundredth: only the multiple counts *)
Lemma fbin_level tp n k : (0 < n)%nat -> (100 * tp = k * n)%nat -> fbin tp n = fbin k 100.
Proof.
  intros Hn H. unfold fbin, frecall. destruct n as [|n]; [lia|].
  rewrite (rnd_comp (qnat tp / qnat (S n)) (qnat k / qnat 100)); [reflexivity|].
  unfold qnat, Qeq, Qdiv, Qmult, Qinv, inject_Z. cbn [Qnum Qden]. apply (f_equal Z.of_nat) in H. rewrite !Nat2Z.inj_mul in H.
  change (Z.of_nat 100) with 100 in *. change (Z.of_nat (S n)) with (Zpos (Pos.of_succ_nat n)) in *. cbn [Qnum Qden]. lia.
Qed.

Definition level_table : bool :=
  forallb (fun k => Nat.eqb (fbin k 100) (if lost k then k - 1 else k)) (seq 0 101).
Lemma level_table_ok : level_table = true.
Proof. vm_compute. reflexivity. Qed.
Lemma fbin_hundredth k : (k <= 100)%nat -> fbin k 100 = if lost k then (k - 1)%nat else k.
Proof.
  intros H. pose proof level_table_ok as T. unfold level_table in T. rewrite forallb_forall in T.
  apply Nat.eqb_eq. apply T. apply in_seq. lia.
Qed.

Theorem fbin_spec tp n : (tp <= n)%nat -> (0 < n)%nat -> Z.of_nat n <= 2 ^ 44 ->
  fbin tp n = if lost (ebin tp n) && Nat.eqb (ebin tp n * n) (100 * tp) then (ebin tp n - 1)%nat else ebin tp n.
Proof.
  intros H Hn Hb. destruct (Nat.eq_dec tp 0) as [->|Ht].
  { rewrite fbin_zero. unfold ebin. rewrite Nat.mul_0_r, Nat.div_0_l by lia. reflexivity. }
  destruct (Nat.eqb_spec (ebin tp n * n) (100 * tp)) as [E|E].
  - rewrite andb_true_r. rewrite (fbin_level tp n (ebin tp n) Hn (eq_sym E)). apply fbin_hundredth.
    unfold ebin. apply Nat.div_le_upper_bound; lia.
  - rewrite andb_false_r. apply fbin_inside; [lia|exact Hb|]. intros k Hk. apply E. unfold ebin. rewrite Hk, Nat.div_mul by lia. reflexivity.
Qed.

Lemma lost_50 tp n : (0 < n)%nat -> lost (ebin tp n) && Nat.eqb (ebin tp n * n) (100 * tp) = true -> exists j, (n = 50 * j)%nat.
Proof.
  intros Hn H. apply andb_true_iff in H. destruct H as [H1 H2]. apply Nat.eqb_eq in H2.
  unfold lost in H1. set (b := ebin tp n) in *. clearbody b.
  assert (G : exists j, Z.of_nat n = 50 * j).
  { apply orb_true_iff in H1. rewrite orb_true_iff in H1. rewrite !Nat.eqb_eq in H1.
    assert (H3 : Z.of_nat b * Z.of_nat n = 100 * Z.of_nat tp) by lia.
    destruct H1 as [[-> | ->] | ->].
    - change (Z.of_nat 29) with 29 in H3. exists (38 * Z.of_nat tp - 11 * Z.of_nat n). lia.
    - change (Z.of_nat 57) with 57 in H3. exists (Z.of_nat tp * 86 - 49 * Z.of_nat n). lia.
    - change (Z.of_nat 58) with 58 in H3. exists (19 * Z.of_nat tp - 11 * Z.of_nat n). lia. }
  destruct G as (j & Hj). exists (Z.to_nat j). lia.
Qed.
