(* Moving a relevant context forward raises the float score (C115). *)
From Verif Require Import TextLoopProofs.
From Verif Require Import Prelude Counting FloatModel FloatProofs RndProofs FReportSpec TextModel TextSpec TextMoreProofs FTextModel FTextSpec FTextMain.
From Coq Require Import Lia String QArith Qabs Lqa.
Local Open Scope nat_scope.
Local Open Scope list_scope.

Lemma step_gap (c k : Z) : (1 <= c)%Z -> (1 <= k)%Z -> (k + 1 <= 4096)%Z -> (inject_Z c / inject_Z (k + 1) + (1 # 16777216) <= inject_Z c / inject_Z k)%Q.
Proof.
  intros Hc Hk Hn. assert (K0 : (1 <= inject_Z k)%Q) by (change 1%Q with (inject_Z 1); rewrite <- Zle_Qle; lia).
  assert (C0 : (1 <= inject_Z c)%Q) by (change 1%Q with (inject_Z 1); rewrite <- Zle_Qle; lia).
  assert (KN : (inject_Z k + 1 <= 4096)%Q). { change (inject_Z k + 1)%Q with (inject_Z k + inject_Z 1)%Q. rewrite <- inject_Z_plus. change 4096%Q with (inject_Z 4096). rewrite <- Zle_Qle. lia. }
  rewrite inject_Z_plus. change (inject_Z 1) with 1%Q. set (x := inject_Z k) in *. set (y := inject_Z c) in *. clearbody x y.
  assert (D : (y / x - y / (x + 1) == y / (x * (x + 1)))%Q) by (field; split; lra).
  assert (P : (0 < x * (x + 1))%Q) by nra. assert (G : ((1 # 16777216) <= y / (x * (x + 1)))%Q) by (apply Qle_shift_div_l; [exact P|]; nra). lra.
Qed.
Lemma mean_precision_gap rel n k : 1 <= k -> S k <= n -> (Z.of_nat n <= 4096)%Z -> rel k = false -> rel (S k) = true ->
  (mean_precision rel n + (1 # 68719476736) <= mean_precision (swapped rel k) n)%Q.
Proof.
  intros H1 H2 HN Rk Rk1.
  assert (Sk : swapped rel k k = true) by (unfold swapped; rewrite Nat.eqb_refl; exact Rk1).
  assert (Sk1 : swapped rel k (S k) = false) by (unfold swapped; rewrite Nat.eqb_refl; replace (S k =? k) with false by (symmetry; apply Nat.eqb_neq; lia); exact Rk).
  assert (So : forall j, j <> k -> j <> S k -> swapped rel k j = rel j) by (intros j A B; unfold swapped; rewrite (proj2 (Nat.eqb_neq _ _) A), (proj2 (Nat.eqb_neq _ _) B); reflexivity).
  set (a := filter rel (seq 1 (k - 1))). set (b := filter rel (seq (S (S k)) (n - S k))).
  assert (E1 : filter rel (seq 1 n) = a ++ S k :: b).
  { rewrite (seq_split3 n k H1 H2), !filter_app. cbn [filter]. rewrite Rk, Rk1. reflexivity. }
  assert (E2 : filter (swapped rel k) (seq 1 n) = a ++ k :: b).
  { rewrite (seq_split3 n k H1 H2), !filter_app. cbn [filter]. rewrite Sk, Sk1. cbn [List.app]. f_equal; [|f_equal]; apply filter_ext_in; intros j Hj; apply in_seq in Hj; apply So; lia. }
  assert (P : forall j, j <> k -> precision_at (swapped rel k) j = precision_at rel j) by (intros j Hj; unfold precision_at; rewrite swapped_count by assumption; reflexivity).
  assert (Ma : List.map (precision_at (swapped rel k)) a = List.map (precision_at rel) a) by (apply map_ext_in; intros j Hj; apply P; apply filter_In in Hj; destruct Hj as [Hj _]; apply in_seq in Hj; lia).
  assert (Mb : List.map (precision_at (swapped rel k)) b = List.map (precision_at rel) b) by (apply map_ext_in; intros j Hj; apply P; apply filter_In in Hj; destruct Hj as [Hj _]; apply in_seq in Hj; lia).
  assert (U : forall f : nat -> bool, countb f (seq 1 k) = countb f (seq 1 (k - 1)) + if f k then 1 else 0).
  { intro f. replace (seq 1 k) with (seq 1 (k - 1) ++ [k]).
    - rewrite countb_app, countb_cons, countb_nil. lia.
    - replace [k] with [1 + (k - 1)] by (f_equal; lia). rewrite <- seq_S. f_equal. lia. }
  assert (V : countb rel (seq 1 (S k)) = countb rel (seq 1 k) + 1).
  { rewrite seq_S, countb_app, countb_cons, countb_nil. change (1 + k) with (S k). rewrite Rk1. lia. }
  assert (Ck : countb (swapped rel k) (seq 1 k) = countb rel (seq 1 (S k))).
  { rewrite V, !U, swapped_count by lia. rewrite Sk, Rk. lia. }
  assert (Cp : 0 < countb rel (seq 1 (S k))) by lia.
  assert (LT : (precision_at rel (S k) + (1 # 16777216) <= precision_at (swapped rel k) k)%Q).
  { unfold precision_at, fraction. rewrite Ck. rewrite (Nat2Z.inj_succ k). apply (step_gap _ (Z.of_nat k)); lia. }
  unfold mean_precision. rewrite E1, E2. assert (L : List.length (a ++ S k :: b) = List.length (a ++ k :: b)) by (rewrite !app_length; reflexivity). rewrite <- L.
  assert (L0 : 0 < List.length (a ++ S k :: b)) by (rewrite app_length; cbn; lia). rewrite (proj2 (Nat.ltb_lt _ _) L0).
  assert (LN : (Z.of_nat (List.length (a ++ S k :: b)) <= 4096)%Z).
  { rewrite <- E1. pose proof (countb_le_length rel (seq 1 n)) as F. unfold countb in F. rewrite seq_length in F. lia. }
  set (m := inject_Z (Z.of_nat (List.length (a ++ S k :: b)))). assert (M1 : (1 <= m)%Q) by (unfold m; change 1%Q with (inject_Z 1); rewrite <- Zle_Qle; lia).
  assert (M2 : (m <= 4096)%Q) by (unfold m; change 4096%Q with (inject_Z 4096); rewrite <- Zle_Qle; lia).
  apply Qle_shift_div_l; [lra|].
  set (X := sumQ (List.map (precision_at rel) (a ++ S k :: b))). setoid_replace ((X / m + (1 # 68719476736)) * m)%Q with (X + (1 # 68719476736) * m)%Q by (field; lra).
  unfold X. rewrite !map_app. cbn [List.map]. rewrite Ma, Mb, !sumQ_app. cbn [sumQ fold_right]. fold (sumQ (List.map (precision_at rel) b)). lra.
Qed.

Lemma mean_precision_ext rel rel' n : (forall j, 1 <= j <= n -> rel j = rel' j) -> mean_precision rel n = mean_precision rel' n.
Proof.
  intros H. assert (F : filter rel (seq 1 n) = filter rel' (seq 1 n)) by (apply filter_ext_in; intros j Hj; apply in_seq in Hj; apply H; lia).
  unfold mean_precision. rewrite F. assert (M : List.map (precision_at rel) (filter rel' (seq 1 n)) = List.map (precision_at rel') (filter rel' (seq 1 n))).
  { apply map_ext_in. intros k Hk. apply filter_In in Hk. destruct Hk as [Hk _]. apply in_seq in Hk. unfold precision_at. f_equal. unfold countb. f_equal.
    apply filter_ext_in. intros j Hj. apply in_seq in Hj. apply H. lia. }
  rewrite M. reflexivity.
Qed.
(* the exact score behind a float one *)
Lemma precision_behind {St} (c : client St) py new sys query predicted gts s v s1 tr vss : python_ok py -> predicted <> [] -> gts <> [] ->
  (Z.of_nat (List.length predicted) <= 4096)%Z ->
  fcalculate_context_precision py new sys query predicted gts c s = (Ok v, s1, tr) ->
  judged py (fun g => (sys, AskPrecision query predicted g)) yes_no (List.length predicted) gts tr vss ->
  within 4097 (mean_precision (relevant vss) (List.length predicted)) v.
Proof.
  intros Hpy Hp Hg HN E J. destruct (precision_rel py new sys query predicted gts c s) as (H & Hs & Ht). rewrite E in H, Hs, Ht. cbn [fst snd] in H, Hs, Ht.
  destruct (calculate_context_precision py sys query predicted gts c s) as [[o s2] tr2] eqn:Eq. cbn [fst snd] in H, Hs, Ht. subst s2 tr2.
  destruct o as [q| |]; [|destruct H|destruct H].
  assert (R0 : returns (calculate_context_precision py sys query predicted gts) c s q s1 tr) by (exists q; split; [exact Eq|reflexivity]).
  apply (proj1 (precision_ok c py sys query predicted gts s _ s1 tr Hpy)) in R0. destruct R0 as [T _].
  assert (R : returns (calculate_context_precision py sys query predicted gts) c s (mean_precision (relevant vss) (List.length predicted)) s1 tr).
  { apply (proj2 (precision_ok c py sys query predicted gts s _ s1 tr Hpy)). split; [exact T|]. right. right. split; [exact Hp|]. split; [exact Hg|]. exists vss. split; [exact J|reflexivity]. }
  destruct R as (q' & Eq' & Qq). rewrite Eq in Eq'. injection Eq' as <-. cbn [out_rel] in H.
  destruct (H ltac:(unfold len; lia)) as (_ & W & _). unfold within in *. rewrite Qq in W. eapply Qle_trans; [exact W|]. apply Qmult_le_compat_r; [|discriminate].
  rewrite <- Zle_Qle. destruct new; unfold len; lia.
Qed.
Theorem precision_order {St St'} (c : client St) (c' : client St') py new sys query predicted predicted' gts s s' v v' s1 s1' tr tr' vss vss' k :
  python_ok py -> gts <> [] -> List.length predicted' = List.length predicted -> (Z.of_nat (List.length predicted) <= 4096)%Z ->
  fcalculate_context_precision py new sys query predicted gts c s = (Ok v, s1, tr) ->
  fcalculate_context_precision py new sys query predicted' gts c' s' = (Ok v', s1', tr') ->
  judged py (fun g => (sys, AskPrecision query predicted g)) yes_no (List.length predicted) gts tr vss ->
  judged py (fun g => (sys, AskPrecision query predicted' g)) yes_no (List.length predicted') gts tr' vss' ->
  1 <= k < List.length predicted -> relevant vss k = false -> relevant vss (S k) = true ->
  (forall j, 1 <= j <= List.length predicted -> relevant vss' j = swapped (relevant vss) k j) -> (v < v')%Q.
Proof.
  intros Hpy Hg HL HN E E' J J' Hk R1 R2 HS.
  assert (Hp : predicted <> []) by (intro; subst; cbn in Hk; lia). assert (Hp' : predicted' <> []) by (intro; subst; cbn in HL; lia).
  pose proof (precision_behind c py new sys query predicted gts s v s1 tr vss Hpy Hp Hg HN E J) as W.
  pose proof (precision_behind c' py new sys query predicted' gts s' v' s1' tr' vss' Hpy Hp' Hg ltac:(lia) E' J') as W'. rewrite HL in W'.
  rewrite (mean_precision_ext _ _ _ HS) in W'.
  pose proof (mean_precision_gap (relevant vss) (List.length predicted) k ltac:(lia) ltac:(lia) HN R1 R2) as G.
  unfold within in W, W'. apply Qabs_Qle_condition in W. apply Qabs_Qle_condition in W'.
  assert (K : (inject_Z 4097 * half_ulp <= 1 # 549755813888)%Q) by (vm_compute; discriminate). lra.
Qed.
