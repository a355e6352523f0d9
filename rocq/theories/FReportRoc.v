(* The areas of the ROC curves as binary64 numbers against the exact ones (C114). *)
From Verif Require Import Prelude Counting CacheModel CacheSpec ClsModel ClsSpec RocModel RocProofs RocCurve FlowModel ClsFilterModel
  FloatModel FloatProofs RndProofs FReportModel FReportSpec FReportProofs FReportMain FReportDet.
From Coq Require Import Lia String QArith Qabs Qminmax Lqa Permutation Sorted.
Local Notation length := List.length (only parsing).
Local Notation concat := List.concat (only parsing).
Local Open Scope Z_scope.

Lemma total_nonneg l : Forall (fun x => (0 <= x)%Q) l -> (0 <= total l)%Q.
Proof. induction 1 as [|x l H _ IH]; [apply Qle_refl|]. cbn [total fold_right]. fold (total l). lra. Qed.
Lemma zlen_pos {A} (x : A) l : (1 <= zlen (x :: l))%Q.
Proof. change 1%Q with (inject_Z 1). rewrite <- Zle_Qle. cbn [List.length]. lia. Qed.
(* the relative error of a sum of non-negative numbers in any order *)
Lemma tsum_rel t : Forall fl (leaves t) -> Z.of_nat (length (leaves t)) <= 2 ^ 51 ->
  (Qabs (tsum t - total (leaves t)) <= 2 * zlen (leaves t) * half_ulp * total (leaves t))%Q.
Proof.
  induction t as [|x|a IHa b IHb]; cbn [leaves tsum]; intros F B.
  - vm_compute. discriminate.
  - inversion F as [|? ? Fx _]; subst. apply fl_nonneg in Fx. unfold total. cbn [fold_right List.length]. change (inject_Z (Z.of_nat 1)) with 1%Q.
    rewrite (Qabs_wd _ 0) by ring. change (Qabs 0) with 0%Q. lra.
  - apply Forall_app in F. destruct F as [Fa Fb]. rewrite app_length in B. specialize (IHa Fa ltac:(lia)). specialize (IHb Fb ltac:(lia)).
    assert (N : forall l, Forall fl l -> (0 <= total l)%Q) by (intros l H; apply total_nonneg; eapply Forall_impl; [|exact H]; apply fl_nonneg).
    pose proof (N _ Fa) as Ta. pose proof (N _ Fb) as Tb.
    pose proof (tsum_nonneg a ltac:(eapply Forall_impl; [|exact Fa]; apply fl_nonneg)) as Na.
    pose proof (tsum_nonneg b ltac:(eapply Forall_impl; [|exact Fb]; apply fl_nonneg)) as Nb. rewrite total_app, zlen_app.
    destruct (leaves a) as [|xa la] eqn:Ea.
    { pose proof (leaves_nil a Ea) as Za. assert (E : (tsum a + tsum b == tsum b)%Q) by (rewrite Za; ring).
      rewrite (rnd_comp _ _ E), (rnd_id (tsum b) (tsum_fl b Fb)). change (total []) with 0%Q. change (inject_Z (Z.of_nat (length (@nil Q)))) with 0%Q.
      rewrite (Qabs_wd _ (tsum b - total (leaves b))) by ring. lra. }
    destruct (leaves b) as [|xb lb] eqn:Eb.
    { pose proof (leaves_nil b Eb) as Zb. assert (E : (tsum a + tsum b == tsum a)%Q) by (rewrite Zb; ring).
      rewrite (rnd_comp _ _ E), (rnd_id (tsum a) (tsum_fl a ltac:(rewrite Ea; exact Fa))). change (total []) with 0%Q. change (inject_Z (Z.of_nat (length (@nil Q)))) with 0%Q.
      rewrite (Qabs_wd _ (tsum a - total (xa :: la))) by ring. lra. }
    pose proof (zlen_pos xa la) as A1. pose proof (zlen_pos xb lb) as B1.
    assert (K : (zlen (xa :: la) + zlen (xb :: lb) <= 2251799813685248)%Q).
    { rewrite <- inject_Z_plus. change 2251799813685248%Q with (inject_Z 2251799813685248). rewrite <- Zle_Qle. lia. }
    destruct (rnd_err (tsum a + tsum b) ltac:(lra)) as [R1 R2]. apply Qabs_Qle_condition in IHa, IHb. apply Qabs_Qle_condition.
    set (n := zlen (xa :: la)) in *. set (m := zlen (xb :: lb)) in *. set (A := total (xa :: la)) in *. set (C := total (xb :: lb)) in *.
    set (sa := tsum a) in *. set (sb := tsum b) in *. clearbody n m A C sa sb. clear - IHa IHb R1 R2 A1 B1 K Ta Tb.
    assert (P1 : (0 <= (m - 1) * A)%Q) by (apply Qmult_le_0_compat; lra). assert (P2 : (0 <= (n - 1) * C)%Q) by (apply Qmult_le_0_compat; lra).
    assert (P3 : (0 <= (2251799813685248 - n) * A)%Q) by (apply Qmult_le_0_compat; lra). assert (P4 : (0 <= (2251799813685248 - m) * C)%Q) by (apply Qmult_le_0_compat; lra).
    split; lra.
Qed.

(* ------------------------------------------------------------------ one curve *)
Lemma fl_half x : fl x -> fl (x / 2).
Proof.
  intros (k & e & Hk & E). exists k, (e - 1). split; [exact Hk|]. rewrite E. assert (P := pow2_add (e - 1) 1 ltac:(lia)). replace (e - 1 + 1) with e in P by lia.
  rewrite P. change (inject_Z (2 ^ 1)) with 2%Q. field.
Qed.
Lemma srnd_nonneg x : (0 <= x)%Q -> srnd x = rnd x.
Proof. intros H. unfold srnd. destruct (Qlt_le_dec x 0); [lra|reflexivity]. Qed.

Lemma mult_near d s D S' : (0 <= D)%Q -> (D <= 1)%Q -> (0 <= d)%Q -> (0 <= S')%Q -> (S' <= 2)%Q -> (0 <= s)%Q -> (s <= 2)%Q ->
  (Qabs (d - D) <= 3 * half_ulp)%Q -> (Qabs (s - S') <= 4 * half_ulp)%Q -> (Qabs (d * s - D * S') <= 10 * half_ulp)%Q.
Proof.
  intros D0 D1 d0 S0 S2 s0 s2 Hd Hs. assert (E : (d * s - D * S' == (d - D) * s + D * (s - S'))%Q) by ring. rewrite E.
  eapply Qle_trans; [apply Qabs_triangle|]. rewrite !Qabs_Qmult. rewrite (Qabs_pos s s0), (Qabs_pos D D0).
  pose proof (Qabs_nonneg (d - D)). pose proof (Qabs_nonneg (s - S')). nra.
Qed.
(* one trapezoid *)
Lemma term_near X X' Y Y' : (0 <= X)%Q -> (X <= X')%Q -> (X' <= 1)%Q -> unit_range Y -> unit_range Y' ->
  let f := srnd (srnd (srnd (rnd X' - rnd X) * srnd (rnd Y' + rnd Y)) / 2) in
  (Qabs (f - (X' - X) * (Y + Y') / 2) <= 6 * half_ulp)%Q /\ fl f /\ (f <= 1)%Q.
Proof.
  intros HX HXX HX1 [Y0 Y1] [Y0' Y1'] f. pose proof (rnd_mono X X' HXX) as M. pose proof (rnd_nonneg X) as x0. pose proof (rnd_le X' 1 fl_1 HX1) as x1.
  pose proof (rnd_nonneg Y) as y0. pose proof (rnd_nonneg Y') as y0'. pose proof (rnd_le Y 1 fl_1 Y1) as y1. pose proof (rnd_le Y' 1 fl_1 Y1') as y1'.
  pose proof (rnd_near X HX ltac:(lra)) as ex. pose proof (rnd_near X' ltac:(lra) HX1) as ex'. pose proof (rnd_near Y Y0 Y1) as ey. pose proof (rnd_near Y' Y0' Y1') as ey'.
  set (d := rnd (rnd X' - rnd X)). set (s := rnd (rnd Y' + rnd Y)).
  assert (fl2 : fl 2) by (apply (fl_int 2); lia).
  assert (d0 : (0 <= d)%Q) by apply rnd_nonneg. assert (d1 : (d <= 1)%Q) by (apply rnd_le; [apply fl_1|lra]).
  assert (s0 : (0 <= s)%Q) by apply rnd_nonneg. assert (s2 : (s <= 2)%Q) by (apply rnd_le; [exact fl2|lra]).
  pose proof (abs_err (rnd X' - rnd X) _ ltac:(lra) (rnd_err (rnd X' - rnd X) ltac:(lra))) as ed. fold d in ed.
  pose proof (abs_err (rnd Y' + rnd Y) _ ltac:(lra) (rnd_err (rnd Y' + rnd Y) ltac:(lra))) as es. fold s in es.
  apply Qabs_Qle_condition in ex, ex', ey, ey', ed, es.
  assert (Ed : (Qabs (d - (X' - X)) <= 3 * half_ulp)%Q) by (apply Qabs_Qle_condition; split; lra).
  assert (Es : (Qabs (s - (Y + Y')) <= 4 * half_ulp)%Q) by (apply Qabs_Qle_condition; split; lra).
  pose proof (mult_near d s (X' - X) (Y + Y') ltac:(lra) ltac:(lra) d0 ltac:(lra) ltac:(lra) s0 s2 Ed Es) as Ep.
  assert (ds0 : (0 <= d * s)%Q) by (apply Qmult_le_0_compat; assumption). assert (ds2 : (d * s <= 2)%Q) by nra.
  pose proof (abs_err _ _ ds0 (rnd_err (d * s) ds0)) as er.
  assert (Ef : (f == rnd (d * s) / 2)%Q).
  { unfold f. rewrite (srnd_nonneg (rnd X' - rnd X)) by lra. rewrite (srnd_nonneg (rnd Y' + rnd Y)) by lra. fold d s. rewrite (srnd_nonneg (d * s)) by exact ds0.
    rewrite srnd_nonneg by (apply Qle_shift_div_l; [lra|]; pose proof (rnd_nonneg (d * s)); lra). apply rnd_id, fl_half, rnd_fl. }
  apply Qabs_Qle_condition in Ep, er. split; [|split].
  - rewrite Ef. apply Qabs_Qle_condition. unfold Qdiv. change (/ 2)%Q with (1 # 2)%Q. split; lra.
  - apply (fl_wd (rnd (d * s) / 2)); [symmetry; exact Ef|]. apply fl_half, rnd_fl.
  - rewrite Ef. apply Qle_shift_div_r; [lra|]. pose proof (rnd_le (d * s) 2 fl2 ds2). lra.
Qed.

(* exact terms of a curve *)
Fixpoint terms (pts : list (Q * Q)) : list Q :=
  match pts with
  | a :: t => match t with b :: _ => ((fst b - fst a) * (snd a + snd b) / 2)%Q :: terms t | [] => [] end
  | [] => []
  end.
Lemma trapezoid_terms pts : (trapezoid pts == total (terms pts))%Q.
Proof.
  induction pts as [|a t IH]; [reflexivity|]. destruct t as [|b t]; [reflexivity|]. change (trapezoid (a :: b :: t)) with ((fst b - fst a) * (snd a + snd b) / 2 + trapezoid (b :: t))%Q.
  rewrite IH. reflexivity.
Qed.
(* a rising curve in the unit square *)
Definition rising (a b : Q * Q) : Prop := (fst a <= fst b)%Q.
Definition in_square (a : Q * Q) : Prop := unit_range (fst a) /\ unit_range (snd a).
Definition rnd_pt (a : Q * Q) : Q * Q := (rnd (fst a), rnd (snd a)).
Lemma terms_near pts : Forall in_square pts -> Sorted rising pts ->
  Forall2 (fun q v => Qabs (v - q) <= 6 * half_ulp)%Q (terms pts) (fterms (map rnd_pt pts)) /\ Forall fl (fterms (map rnd_pt pts)).
Proof.
  induction pts as [|a t IH]; intros H S; [split; constructor|]. destruct t as [|b t]; [split; constructor|].
  inversion H as [|? ? Ha H']; subst. inversion S as [|? ? S' Hab]; subst. destruct (IH H' S') as [I1 I2]. inversion H' as [|? ? Hb _]; subst.
  inversion Hab as [|? ? Hr]; subst. destruct Ha as [[A1 A2] A3]. destruct Hb as [[B1 B2] B3].
  destruct (term_near (fst a) (fst b) (snd a) (snd b) A1 Hr B2 A3 B3) as (T1 & T2 & _).
  change (fterms (map rnd_pt (a :: b :: t))) with (srnd (srnd (srnd (rnd (fst b) - rnd (fst a)) * srnd (rnd (snd b) + rnd (snd a))) / 2) :: fterms (map rnd_pt (b :: t))).
  change (terms (a :: b :: t)) with (((fst b - fst a) * (snd a + snd b) / 2)%Q :: terms (b :: t)). split; constructor; assumption.
Qed.
Lemma terms_length pts : length (terms pts) = (length pts - 1)%nat.
Proof. induction pts as [|a t IH]; [reflexivity|]. destruct t as [|b t]; [reflexivity|]. change (length (terms (a :: b :: t))) with (S (length (terms (b :: t)))). rewrite IH. cbn [List.length]. lia. Qed.
Lemma last_in_square : forall pts d, in_square d -> Forall in_square pts -> in_square (last pts d).
Proof. induction pts as [|a t IH]; intros d Hd H; [exact Hd|]. inversion H; subst. destruct t; [assumption|]. apply IH; assumption. Qed.
Lemma last_shift {A} : forall (t : list A) a b, last (b :: t) a = last t b.
Proof. induction t as [|c t IH]; intros a b; [reflexivity|]. change (last (b :: c :: t) a) with (last (c :: t) a). rewrite !IH. reflexivity. Qed.
(* the area below the last point *)
Lemma terms_area : forall pts a, Forall in_square (a :: pts) -> Sorted rising (a :: pts) ->
  (0 <= total (terms (a :: pts)))%Q /\ (total (terms (a :: pts)) + fst a <= fst (last pts a))%Q.
Proof.
  induction pts as [|b t IH]; intros a H S; [cbn; lra|]. inversion H as [|? ? Ha H']; subst. inversion S as [|? ? S' Hab]; subst. inversion Hab as [|? ? Hr]; subst.
  inversion H' as [|? ? Hb _]; subst. destruct (IH b H' S') as [I1 I2]. change (terms (a :: b :: t)) with (((fst b - fst a) * (snd a + snd b) / 2)%Q :: terms (b :: t)).
  change (total (?x :: ?l)) with (x + total l)%Q. destruct Ha as [[A1 A2] [A3 A4]]. destruct Hb as [[B1 B2] [B3 B4]]. unfold rising in Hr.
  rewrite last_shift. assert (T1 : (0 <= (fst b - fst a) * (snd a + snd b))%Q) by (apply Qmult_le_0_compat; lra).
  assert (T2 : ((fst b - fst a) * (snd a + snd b) <= 2 * (fst b - fst a))%Q) by nra. unfold Qdiv. change (/ 2)%Q with (1 # 2)%Q. split; lra.
Qed.

Section Area.
  Variable nsum : list Q -> Q.
  Hypothesis Hsum : summation nsum.
  Lemma nsum_rel l : Forall fl l -> Z.of_nat (length l) <= 2 ^ 51 ->
    (Qabs (nsum l - total l) <= 2 * zlen l * half_ulp * total l)%Q /\ fl (nsum l).
  Proof.
    intros F B. destruct (Hsum l) as (t & P & E); [eapply Forall_impl; [|exact F]; apply fl_nonneg|].
    pose proof (Forall_perm _ _ _ P F) as F'. assert (Ln : length (leaves t) = length l) by (apply Permutation_length; exact P).
    pose proof (tsum_rel t F' ltac:(rewrite Ln; exact B)) as R. rewrite Ln, (total_perm _ _ P) in R. split.
    { rewrite (Qabs_wd _ (tsum t - total l)); [exact R|]. rewrite E. reflexivity. }
    apply (fl_wd (tsum t)); [symmetry; exact E|]. apply tsum_fl. exact F'.
  Qed.
  Lemma area_near pts : Forall in_square pts -> Sorted rising pts -> Z.of_nat (length pts) <= 2 ^ 49 ->
    (Qabs (nsum (fterms (map rnd_pt pts)) - trapezoid pts) <= 10 * zlen pts * half_ulp)%Q /\ fl (nsum (fterms (map rnd_pt pts))).
  Proof.
    intros H S B. destruct (terms_near pts H S) as [T F]. pose proof (Forall2_len _ _ _ T) as Len. rewrite terms_length in Len.
    destruct (nsum_rel (fterms (map rnd_pt pts)) F ltac:(lia)) as [R Fn]. split; [|exact Fn]. pose proof (total_near _ _ _ T) as N. rewrite trapezoid_terms.
    destruct pts as [|a pts].
    { cbn [map fterms terms] in *. apply Qabs_Qle_condition in R. apply Qabs_Qle_condition. change (zlen []) with 0%Q in *. change (total []) with 0%Q in *. split; lra. }
    destruct (terms_area pts a H S) as [A0 A1]. pose proof (last_in_square pts a ltac:(inversion H; assumption) ltac:(inversion H; assumption)) as [[_ L1] _].
    inversion H as [|? ? [[a0 _] _] _]; subst. rewrite terms_length in N.
    assert (K1 : (zlen (fterms (map rnd_pt (a :: pts))) <= zlen (a :: pts))%Q) by (rewrite <- Len, <- Zle_Qle; lia).
    assert (K2 : (inject_Z (Z.of_nat (length (a :: pts) - 1)) <= zlen (a :: pts))%Q) by (rewrite <- Zle_Qle; lia).
    assert (K3 : (zlen (a :: pts) <= 562949953421312)%Q) by (change 562949953421312%Q with (inject_Z 562949953421312); rewrite <- Zle_Qle; lia).
    pose proof (zlen_pos a pts) as K4. pose proof (zlen_nonneg (fterms (map rnd_pt (a :: pts)))) as K0.
    assert (P : (0 <= total (fterms (map rnd_pt (a :: pts))))%Q) by (apply total_nonneg; eapply Forall_impl; [|exact F]; apply fl_nonneg).
    apply Qabs_Qle_condition in R, N. apply Qabs_Qle_condition.
    set (T0 := total (terms (a :: pts))) in *. set (F0 := total (fterms (map rnd_pt (a :: pts)))) in *. set (v := nsum (fterms (map rnd_pt (a :: pts)))) in *.
    set (k := zlen (fterms (map rnd_pt (a :: pts)))) in *. set (k' := inject_Z (Z.of_nat (length (a :: pts) - 1))) in *. set (n := zlen (a :: pts)) in *.
    clearbody T0 F0 v k k' n. clear - A0 A1 L1 a0 K1 K2 K3 K4 K0 P R N.
    assert (F2 : (F0 <= 2)%Q) by lra. assert (kF : (k * F0 <= 2 * n)%Q) by nra. assert (kF0 : (0 <= k * F0)%Q) by (apply Qmult_le_0_compat; lra). split; lra.
  Qed.
End Area.

(* ------------------------------------------------------------------ curves in files *)
Definition pt_le (p q : nat * nat) : Prop := (fst p <= fst q)%nat /\ (snd p <= snd q)%nat.
Lemma pt_le_trans : Relations_1.Transitive pt_le.
Proof. intros a b c [H1 H2] [H3 H4]. split; lia. Qed.
Lemma rate_range a b : Z.of_nat a <= b -> unit_range (rate a b).
Proof.
  intros H. unfold rate. destruct (Z.ltb_spec 0 b) as [B|B]; [|split; lra]. split; [apply div_nonneg; lia|].
  apply Qle_shift_div_r; [apply inject_pos; exact B|]. rewrite Qmult_1_l, <- Zle_Qle. exact H.
Qed.
Lemma rate_mono a a' b : (a <= a')%nat -> (rate a b <= rate a' b)%Q.
Proof.
  intros H. unfold rate. destruct (Z.ltb_spec 0 b) as [B|B]; [|lra]. apply Qmult_le_compat_r; [rewrite <- Zle_Qle; lia|].
  apply Qlt_le_weak, Qinv_lt_0_compat, inject_pos. exact B.
Qed.
Lemma fdivz_rate a b : Z.of_nat a <= b <= 2 ^ 53 -> fdivz (Z.of_nat a) b = rnd (rate a b).
Proof.
  intros H. unfold rate. destruct (Z.ltb_spec 0 b) as [B|B]; [apply fdivz_small; lia|]. replace b with 0 by lia. rewrite rnd_zero by lra. reflexivity.
Qed.
Section Files.
  Variable nsum : list Q -> Q.
  Hypothesis Hsum : summation nsum.
  Variables gtc pdc : Z.
  Local Notation neg := ((pdc - gtc) mod (2 ^ 64)).
  Hypothesis Hg : 0 <= gtc <= 2 ^ 53.
  Hypothesis Hn : neg <= 2 ^ 53.
  Definition fits (p : nat * nat) : Prop := Z.of_nat (fst p) <= neg /\ Z.of_nat (snd p) <= gtc.
  Local Notation sp := (fun p : nat * nat => (rate (fst p) neg, rate (snd p) gtc)).
  Lemma neg_nonneg : 0 <= neg.
  Proof. apply Z.mod_pos_bound. lia. Qed.
  Lemma square pts : Forall fits pts -> Forall in_square (map sp pts).
  Proof. induction 1 as [|p pts [H1 H2] _ IH]; [constructor|]. cbn [map]. constructor; [|exact IH]. split; apply rate_range; assumption. Qed.
  Lemma rising_pts pts : Sorted pt_le pts -> Sorted rising (map sp pts).
  Proof.
    induction 1 as [|p pts S IH H]; [constructor|]. cbn [map]. constructor; [exact IH|]. destruct H as [|q pts [H _]]; constructor. apply rate_mono. exact H.
  Qed.
  Lemma float_pts pts : Forall fits pts -> map (fun p => (fdivz (Z.of_nat (fst p)) neg, fdivz (Z.of_nat (snd p)) gtc)) pts = map rnd_pt (map sp pts).
  Proof.
    intros H. rewrite map_map. apply map_ext_in. intros p Hp. apply (proj1 (Forall_forall _ _) H) in Hp. destruct Hp as [H1 H2].
    unfold rnd_pt. cbn [fst snd]. rewrite !fdivz_rate by lia. reflexivity.
  Qed.
  Lemma map_last {A B} (f : A -> B) : forall l d, last (map f l) (f d) = f (last l d).
  Proof. induction l as [|a l IH]; intros d; [reflexivity|]. cbn [map]. rewrite !last_shift. apply IH. Qed.

  Definition st_ok (k : Q) (A : Q * (nat * nat)) (a : Q * (nat * nat)) : Prop :=
    snd a = snd A /\ (0 <= fst A)%Q /\ (fst A <= rate (fst (snd A)) neg)%Q /\ fl (fst a) /\ (Qabs (fst a - fst A) <= 22 * k * half_ulp)%Q.
  Lemma step_near k A a pts : st_ok k A a -> (0 <= k)%Q -> (k + zlen pts <= 281474976710656)%Q -> fits (snd A) -> Forall fits pts -> Sorted pt_le (snd A :: pts) ->
    st_ok (k + zlen pts) (rocauc_step gtc pdc A pts) (frocauc_step nsum gtc pdc a pts).
  Proof.
    intros (E & A0 & A1 & F & N) K0 K HfA Hf S. destruct A as [A prev], a as [a prev2]. cbn [fst snd] in *. subst prev2.
    unfold rocauc_step, frocauc_step. destruct pts as [|p0 pts0] eqn:Ep.
    { change (zlen []) with 0%Q. split; [reflexivity|]. cbn [fst snd]. split; [exact A0|]. split; [exact A1|]. split; [exact F|]. rewrite Qplus_0_r. exact N. }
    rewrite <- Ep in *. pose proof (zlen_pos p0 pts0) as KP. rewrite <- Ep in KP.
    assert (Wide : (Qabs (a - A) <= 22 * (k + zlen pts) * half_ulp)%Q) by (eapply Qle_trans; [exact N|]; lra).
    destruct (pdc =? 0); [split; [reflexivity|]; cbn [fst snd]; auto|]. cbv zeta.
    set (t := Nat.ltb 0 (fst prev) || Nat.ltb 0 (snd prev)). set (pts' := if t then prev :: pts else pts).
    assert (NE : exists q qs, pts' = q :: qs /\ (rate (fst prev) neg <= rate (fst q) neg)%Q).
    { unfold pts'. destruct t eqn:Et; [exists prev, pts; split; [reflexivity|lra]|]. exists p0, pts0. split; [exact Ep|]. apply rate_mono.
      unfold t in Et. apply orb_false_iff in Et. destruct Et as [Et _]. apply Nat.ltb_ge in Et. lia. }
    assert (Fit' : Forall fits pts') by (unfold pts'; destruct t; [constructor; assumption|assumption]).
    assert (S' : Sorted pt_le pts') by (unfold pts'; destruct t; [exact S|inversion S; assumption]).
    assert (Last : forall d, last pts' d = last pts d).
    { intros d. unfold pts'. destruct t; [|reflexivity]. rewrite last_shift. rewrite Ep. rewrite !last_shift. reflexivity. }
    assert (Len : length pts' = 1%nat \/ (length pts' <= 1 + length pts)%nat) by (right; unfold pts'; destruct t; cbn [List.length]; lia).
    destruct NE as (q & qs & Eq & Rq). 
    assert (RL : (rate (fst q) neg <= rate (fst (last pts' (0%nat, 0%nat))) neg)%Q).
    { rewrite Eq, last_shift. apply rate_mono. rewrite Eq in S'. apply Sorted_StronglySorted in S'; [|exact pt_le_trans]. inversion S' as [|? ? _ HF]; subst.
      destruct qs as [|x xs]; [cbn; lia|]. assert (In (last (x :: xs) q) (x :: xs)).
      { rewrite last_shift. clear. revert x. induction xs as [|y ys IH]; intros x; [left; reflexivity|]. rewrite last_shift. right. apply IH. }
      apply (proj1 (Forall_forall _ _) HF) in H. apply H. }
    destruct (Nat.eqb_spec (length pts') 1) as [L1|L1].
    { split; [reflexivity|]. cbn [fst snd]. split; [exact A0|]. split; [lra|]. split; [exact F|exact Wide]. }
    split; [reflexivity|]. cbn [fst snd].
    rewrite (float_pts pts' Fit'). destruct (area_near nsum Hsum (map sp pts') (square pts' Fit') (rising_pts pts' S')) as [R Fn].
    { rewrite map_length. assert (inject_Z (Z.of_nat (length pts)) <= inject_Z 281474976710656)%Q by (change (inject_Z 281474976710656) with 281474976710656%Q; lra).
      rewrite <- Zle_Qle in H. unfold pts'. destruct t; cbn [List.length]; lia. }
    set (V := nsum (fterms (map rnd_pt (map sp pts')))) in *.
    assert (TA : (0 <= trapezoid (map sp pts'))%Q /\ (A + trapezoid (map sp pts') <= rate (fst (last pts' (0%nat, 0%nat))) neg)%Q).
    { rewrite !trapezoid_terms. pose proof (square pts' Fit') as Sq. pose proof (rising_pts pts' S') as Rs. rewrite Eq in Sq, Rs |- *. cbn [map] in Sq, Rs |- *.
      destruct (terms_area _ _ Sq Rs) as [T0 T1]. split; [exact T0|]. rewrite (map_last sp qs q) in T1. cbn [fst] in T1. rewrite last_shift. cbn [fst]. lra. }
    destruct TA as [TA0 TA1].
    assert (L1' : (rate (fst (last pts' (0%nat, 0%nat))) neg <= 1)%Q).
    { apply rate_range. rewrite Eq, last_shift. rewrite Eq in Fit'. destruct qs as [|x xs]; [inversion Fit' as [|? ? [? ?] _]; assumption|].
      inversion Fit' as [|? ? _ Fq]; subst. rewrite last_shift. clear - Fq. revert x Fq. induction xs as [|y ys IH]; intros x Fq; [inversion Fq as [|? ? [? ?] _]; assumption|].
      rewrite last_shift. apply IH. inversion Fq; assumption. }
    pose proof (fl_nonneg _ F) as a0. pose proof (fl_nonneg _ Fn) as v0. rewrite (srnd_nonneg (a + V)) by lra.
    split; [lra|]. split; [exact TA1|]. split; [apply rnd_fl|].
    destruct (rnd_err (a + V) ltac:(lra)) as [R1 R2]. apply Qabs_Qle_condition in N, R. apply Qabs_Qle_condition.
    set (T := trapezoid (map sp pts')) in *.
    assert (ZM : (zlen (map sp pts') <= zlen pts + 1)%Q \/ (zlen (map sp pts') <= zlen pts)%Q) by (left; rewrite map_length; change 1%Q with (inject_Z 1); rewrite <- inject_Z_plus, <- Zle_Qle; unfold pts'; destruct t; cbn [List.length]; lia).
    clearbody V T. destruct ZM; split; lra.
  Qed.
End Files.

Lemma fold_near nsum gtc pdc : summation nsum -> 0 <= gtc <= 2 ^ 53 -> (pdc - gtc) mod 2 ^ 64 <= 2 ^ 53 ->
  forall chunks k A a, st_ok gtc pdc k A a -> (0 <= k)%Q -> (k + zlen (concat chunks) <= 281474976710656)%Q -> fits gtc pdc (snd A) -> Forall (fits gtc pdc) (concat chunks) ->
  Sorted pt_le (snd A :: concat chunks) ->
  exists A' a', A' = fold_left (rocauc_step gtc pdc) chunks A /\ a' = fold_left (frocauc_step nsum gtc pdc) chunks a /\
    st_ok gtc pdc (k + zlen (concat chunks)) A' a' /\ fits gtc pdc (snd A').
Proof.
  intros Hsum Hg Hn. induction chunks as [|c chunks IH]; intros k A a H K0 K HA HF HS; cbn [concat fold_left] in *.
  { exists A, a. change (zlen []) with 0%Q. repeat split; try reflexivity; try apply HA; destruct H as (H1 & H2 & H3 & H4 & H5); try assumption. rewrite Qplus_0_r. exact H5. }
  rewrite zlen_app in *. pose proof (inject_nonneg (Z.of_nat (length c)) ltac:(lia)) as C0. pose proof (inject_nonneg (Z.of_nat (length (concat chunks))) ltac:(lia)) as D0.
  apply Forall_app in HF. destruct HF as [Fc Fr].
  assert (HSc : Sorted pt_le (snd A :: c)) by (change (snd A :: c ++ concat chunks) with ((snd A :: c) ++ concat chunks) in HS; clear - HS; revert HS; generalize (snd A :: c); induction l as [|x l IH]; intros HS; [constructor|]; cbn [app] in HS; inversion HS as [|? ? S1 H1]; subst; constructor; [apply IH; exact S1|destruct l; [constructor|cbn [app] in H1; inversion H1; constructor; assumption]]).
  pose proof (step_near nsum Hsum gtc pdc Hg Hn k A a c H K0 ltac:(lra) HA Fc HSc) as St.
  assert (Prev : fits gtc pdc (snd (rocauc_step gtc pdc A c)) /\ Sorted pt_le (snd (rocauc_step gtc pdc A c) :: concat chunks)).
  { assert (Tail : forall x c r, Sorted pt_le (x :: c ++ r) -> Sorted pt_le (last c x :: r)).
    { clear. intros x c. revert x. induction c as [|y c IH]; intros x r HS; [exact HS|]. rewrite last_shift. apply IH. inversion HS; assumption. }
    assert (Skip : Sorted pt_le (snd A :: concat chunks)).
    { apply Sorted_StronglySorted in HS; [|exact pt_le_trans]. apply StronglySorted_Sorted. inversion HS as [|? ? S1 F1]; subst. apply Forall_app in F1. destruct F1 as [_ F1].
      constructor; [|exact F1]. clear - S1. induction c as [|y c IH]; [exact S1|]. apply IH. cbn [app] in S1. inversion S1; assumption. }
    destruct A as [A prev]. cbn [snd] in *. unfold rocauc_step. destruct c as [|y c'] eqn:Ec; [split; [exact HA|exact Skip]|]. rewrite <- Ec in *.
    destruct (pdc =? 0); [split; [exact HA|exact Skip]|]. cbv zeta.
    set (t := Nat.ltb 0 (fst prev) || Nat.ltb 0 (snd prev)).
    assert (L : last (if t then prev :: c else c) (0%nat, 0%nat) = last c prev) by (rewrite Ec; destruct t; rewrite !last_shift; reflexivity).
    assert (G : fits gtc pdc (last c prev) /\ Sorted pt_le (last c prev :: concat chunks)).
    { split; [|apply Tail; exact HS]. rewrite Ec in Fc |- *. rewrite last_shift. clear - Fc. revert y Fc. induction c' as [|z c' IH]; intros y Fc; [inversion Fc; assumption|].
      rewrite last_shift. apply IH. inversion Fc; assumption. }
    destruct (length (if t then prev :: c else c) =? 1)%nat; cbn [snd]; rewrite L; exact G. }
  destruct (IH (k + zlen c)%Q _ _ St ltac:(lra) ltac:(lra) (proj1 Prev) Fr (proj2 Prev)) as (A' & a' & E1 & E2 & E3 & E4).
  exists A', a'. split; [exact E1|]. split; [exact E2|]. split; [|exact E4]. destruct E3 as (H1 & H2 & H3 & H4 & H5).
  split; [exact H1|]. split; [exact H2|]. split; [exact H3|]. split; [exact H4|]. eapply Qle_trans; [exact H5|]. rewrite zlen_app. lra.
Qed.

Lemma scan_rises : forall rows st, Sorted pt_le ((k_fp st, k_tp st) :: snd (scan st rows) ++ [(k_fp (fst (scan st rows)), k_tp (fst (scan st rows)))]) /\
  (length (snd (scan st rows)) <= length rows)%nat.
Proof.
  induction rows as [|r rows IH]; intros st; cbn [scan].
  { split; [|cbn; lia]. cbn. constructor; [repeat constructor|]. constructor. split; cbn; lia. }
  specialize (IH (bump st r)). destruct (scan (bump st r) rows) as [st' pts]. cbn [fst snd] in *. destruct IH as [IH IL].
  assert (C : pt_le (k_fp st, k_tp st) (k_fp (bump st r), k_tp (bump st r))) by (split; cbn; lia).
  assert (IH' : Sorted pt_le ((k_fp st, k_tp st) :: pts ++ [(k_fp st', k_tp st')])).
  { inversion IH as [|? ? S1 H1]; subst. constructor; [exact S1|]. destruct H1 as [|q qs H1]; constructor. eapply pt_le_trans; eassumption. }
  unfold emit. destruct (k_score st =? i_score r); cbn [app List.length]; (split; [|lia]); [exact IH'|].
  constructor; [exact IH'|]. constructor. split; cbn; lia.
Qed.
Lemma curve_rises rows : Sorted pt_le ((0, 0)%nat :: label_curve rows) /\
  Forall (fun p => pt_le p (countb (fun r => negb (i_match r)) rows, countb i_match rows)) (label_curve rows) /\ (length (label_curve rows) <= S (length rows))%nat.
Proof.
  destruct (scan_rises rows rocst0) as [S L]. pose proof (scan_state rocst0 rows) as E. unfold label_curve.
  destruct (scan rocst0 rows) as [st pts]. cbn [fst snd] in *. assert (Ef : k_fp st = countb (fun r => negb (i_match r)) rows /\ k_tp st = countb i_match rows) by (rewrite E; split; reflexivity).
  clear E. destruct Ef as [<- <-]. apply Sorted_StronglySorted in S; [|exact pt_le_trans]. cbn in S. inversion S as [|? ? S1 F1]; subst.
  assert (B : Forall (fun p => pt_le p (k_fp st, k_tp st)) pts).
  { clear - S1. induction pts as [|p pts IH]; [constructor|]. cbn [app] in S1. inversion S1 as [|? ? S2 F2]; subst. constructor; [|apply IH; exact S2].
    apply Forall_app in F2. destruct F2 as [_ F2]. inversion F2; assumption. }
  unfold final_point. destruct (Nat.eqb (fst (k_last st)) (k_fp st) && Nat.eqb (snd (k_last st)) (k_tp st)).
  - rewrite app_nil_r. split; [|split; [exact B|lia]]. apply StronglySorted_Sorted. apply Forall_app in F1. destruct F1 as [F1 _]. constructor; [|exact F1].
    clear - S1. induction pts as [|p pts IH]; [constructor|]. cbn [app] in S1. inversion S1 as [|? ? S2 F2]; subst. constructor; [apply IH; exact S2|]. apply Forall_app in F2. apply F2.
  - split; [apply StronglySorted_Sorted; constructor; assumption|]. split; [|rewrite app_length; cbn [List.length]; lia]. apply Forall_app. split; [exact B|].
    constructor; [split; cbn; lia|constructor].
Qed.

Lemma points_concat i files : concat (map (points_of i) files) = points_of i (concat files).
Proof. induction files as [|f files IH]; [reflexivity|]. cbn [map concat]. rewrite points_of_app, IH. reflexivity. Qed.
Lemma label_near nsum gtc pdc i files rows : summation nsum -> 0 <= gtc <= 2 ^ 53 -> (pdc - gtc) mod 2 ^ 64 <= 2 ^ 53 ->
  points_of i (concat files) = label_curve rows -> Z.of_nat (countb (fun r => negb (i_match r)) rows) <= (pdc - gtc) mod 2 ^ 64 -> Z.of_nat (countb i_match rows) <= gtc ->
  Z.of_nat (length rows) < 2 ^ 48 ->
  within (22 * (1 + Z.of_nat (length rows))) (rocauc_label gtc pdc i files) (frocauc_label nsum gtc pdc i files) /\ fl (frocauc_label nsum gtc pdc i files) /\ unit_range (rocauc_label gtc pdc i files).
Proof.
  intros Hsum Hg Hn Ep Bn Bp Hr. destruct (curve_rises rows) as (S & F & L). pose proof (Z.mod_pos_bound (pdc - gtc) (2 ^ 64) ltac:(lia)) as M.
  assert (Ff : Forall (fits gtc pdc) (label_curve rows)).
  { eapply Forall_impl; [|exact F]. intros p [H1 H2]. cbn [fst snd] in *. split; lia. }
  destruct (fold_near nsum gtc pdc Hsum Hg Hn (map (points_of i) files) 0 (0%Q, (0, 0)%nat) (0%Q, (0, 0)%nat)) as (A & a & EA & Ea & (H1 & H2 & H3 & H4 & H5) & H6).
  - split; [reflexivity|]. cbn [fst snd]. split; [lra|]. split; [apply rate_range; lia|]. split; [apply fl_0|]. change (Qabs (0 - 0)) with 0%Q. lra.
  - lra.
  - rewrite points_concat, Ep, Qplus_0_l. change 281474976710656%Q with (inject_Z (2 ^ 48)). rewrite <- Zle_Qle. lia.
  - split; cbn [fst snd]; lia.
  - rewrite points_concat, Ep. exact Ff.
  - rewrite points_concat, Ep. exact S.
  - unfold rocauc_label, frocauc_label. rewrite <- EA, <- Ea. split; [|split; [exact H4|]].
    + unfold within. eapply Qle_trans; [exact H5|]. rewrite points_concat, Ep, Qplus_0_l. rewrite inject_Z_mult.
      assert (inject_Z (Z.of_nat (length (label_curve rows))) <= inject_Z (1 + Z.of_nat (length rows)))%Q by (rewrite <- Zle_Qle; lia). change (inject_Z 22) with 22%Q. lra.
    + split; [exact H2|]. destruct H6 as [H6 _]. pose proof (rate_range _ _ H6) as [_ R]. lra.
Qed.
