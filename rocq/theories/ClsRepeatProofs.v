(* C140: classification reports of data listed several times. *)
From Verif Require Import Prelude Counting CacheModel CacheSpec ClsModel ClsSpec ClsLabelProofs ClsProofs ClsConfProofs RocModel RocProofs RocMain RocCurve
  FlowModel FlowProofs FlowMore ClsLemmas ClsMore ClsFilterModel ClsFilterSpec ClsFilterProofs ClsFilterCounts ClsFilterMain ClsFilterRoc
  ClsReportModel ClsReportSpec ClsReportProofs ClsReportMore ClsThrSpec ClsThrProofs RepeatSpec RepeatProofs.
From Coq Require Import String QArith.
Local Notation length := List.length (only parsing).
Local Notation concat := List.concat (only parsing).
Local Open Scope nat_scope.
Local Open Scope list_scope.

Lemma qdiv_copies n a b : 0 < n -> (qdiv_or_0 (n * a) (n * b) == qdiv_or_0 a b)%Q.
Proof.
  intros Hn. unfold qdiv_or_0. destruct b as [|b]; [rewrite Nat.mul_0_r; reflexivity|].
  destruct (Nat.ltb_spec 0 (n * S b)) as [H|H]; [|nia]. cbn [Nat.ltb Nat.leb]. apply ratio_scale; lia.
Qed.
Lemma f1_same p p' r r' : (p == p')%Q -> (r == r')%Q -> (f1 p r == f1 p' r')%Q.
Proof.
  intros Hp Hr. unfold f1. destruct (Qlt_le_dec (1 # 1000000000) (p + r)) as [H|H], (Qlt_le_dec (1 # 1000000000) (p' + r')) as [H'|H'];
    [rewrite Hp, Hr; reflexivity|exfalso|exfalso|reflexivity].
  - rewrite Hp, Hr in H. apply (Qlt_not_le _ _ H H').
  - rewrite <- Hp, <- Hr in H'. apply (Qlt_not_le _ _ H' H).
Qed.

Definition times (n : nat) (c : counts) : counts := MkCounts (n * n_tp c) (n * n_fp c) (n * n_fn c) (n * n_tn c).
Lemma precision_times n c : 0 < n -> (precision (times n c) == precision c)%Q.
Proof. intros Hn. unfold precision. cbn [times n_tp n_fp]. rewrite <- Nat.mul_add_distr_l. apply qdiv_copies, Hn. Qed.
Lemma recall_times n c : 0 < n -> (recall (times n c) == recall c)%Q.
Proof. intros Hn. unfold recall. cbn [times n_tp n_fn]. rewrite <- Nat.mul_add_distr_l. apply qdiv_copies, Hn. Qed.

(* the pairs *)
Lemma zsum_app' a b : zsum (a ++ b) = (zsum a + zsum b)%Z.
Proof. unfold zsum. induction a as [|x t IH]; cbn [app fold_right]; [reflexivity|]. rewrite IH. ring. Qed.
Lemma zsum_repeat {A} (f : A -> Z) n l : zsum (map f (concat (repeat l n))) = (Z.of_nat n * zsum (map f l))%Z.
Proof. induction n as [|m IH]; [reflexivity|]. cbn [repeat List.concat]. rewrite map_app, zsum_app', IH, Nat2Z.inj_succ. ring. Qed.
Lemma zsum_scale {A} (f : A -> Z) k l : zsum (map (fun x => (k * f x)%Z) l) = (k * zsum (map f l))%Z.
Proof. unfold zsum. induction l as [|x t IH]; cbn; [ring|]. rewrite IH. ring. Qed.
Lemma pos_repeat n o : pos_of (concat (repeat o n)) = concat (repeat (pos_of o) n).
Proof. unfold pos_of. rewrite repeat_filter. induction n as [|m IH]; [reflexivity|]. cbn. rewrite map_app, IH. reflexivity. Qed.
Lemma neg_repeat n o : neg_of (concat (repeat o n)) = concat (repeat (neg_of o) n).
Proof. unfold neg_of. rewrite repeat_filter. induction n as [|m IH]; [reflexivity|]. cbn. rewrite map_app, IH. reflexivity. Qed.
Lemma mw_copies n o o' : copies n o o' -> twice_mann_whitney o' = (Z.of_nat n * Z.of_nat n * twice_mann_whitney o)%Z.
Proof.
  intros C. rewrite (mw_perm _ _ C). unfold twice_mann_whitney. rewrite pos_repeat, neg_repeat, zsum_repeat.
  rewrite (map_ext _ (fun p => (Z.of_nat n * zsum (map (pair_score p) (neg_of o)))%Z)) by (intros p; apply zsum_repeat).
  rewrite zsum_scale. ring.
Qed.
Lemma pos_copies n o o' : copies n o o' -> copies n (pos_of o) (pos_of o').
Proof. intros C. unfold pos_of. apply copies_map, copies_filter, C. Qed.
Lemma neg_copies n o o' : copies n o o' -> copies n (neg_of o) (neg_of o').
Proof. intros C. unfold neg_of. apply copies_map, copies_filter, C. Qed.
Lemma outcomes_copies n l cs cs' : copies n cs cs' -> copies n (outcomes l cs) (outcomes l cs').
Proof. intros C. unfold outcomes. apply copies_concat, copies_map, C. Qed.
Lemma reduced_copies n w cs cs' : copies n cs cs' -> copies n (reduced w cs) (reduced w cs').
Proof. intros C. unfold reduced. apply copies_map, copies_filter, C. Qed.
Lemma copies_nil {A} n (l l' : list A) : copies n l l' -> 0 < n -> l <> [] -> l' <> [].
Proof. intros C Hn H E. apply H. destruct l as [|x t]; [reflexivity|]. exfalso. assert (X : In x l') by (apply (copies_In n _ _ C Hn); left; reflexivity). rewrite E in X. destruct X. Qed.

Section Cls.
  Variables (n : nat) (cs cs' : list classification).
  Hypothesis Hn : 0 < n.
  Hypothesis HC : copies n cs cs'.
  Hypothesis Hd : Forall distinct_candidates cs.

  Lemma distinct_copies : Forall distinct_candidates cs'.
  Proof. rewrite Forall_forall in *. intros c H. apply Hd, (copies_incl n cs cs' HC c H). Qed.
  Lemma counts_copies u hm pass l : data_counts u hm pass cs' l = times n (data_counts u hm pass cs l).
  Proof. unfold data_counts, times. cbn [n_tp n_fp n_fn n_tn]. rewrite !(copies_countb n cs cs' HC). reflexivity. Qed.

  Variables (w : cview) (e e' : ceval).
  Hypothesis He : cls_evaluator cs w e.
  Hypothesis He' : cls_evaluator cs' w e'.
  Let Ha : Forall accepted cs := ev_acc cs w e He.
  Let Ha' : Forall accepted cs' := ev_acc cs' w e' He'.
  Let Hd' := distinct_copies.

  Lemma labels_copies_In l : In l (labels_of cs') <-> In l (labels_of cs).
  Proof.
    rewrite (labels_of_spec cs' l Ha'), (labels_of_spec cs l Ha). split; intros (c & Hc & E); exists c; (split; [apply (copies_In n cs cs' HC Hn); exact Hc|exact E]).
  Qed.
  Lemma few_copies : few_labels cs -> few_labels cs'.
  Proof.
    intros H. apply (few_sub cs' cs Ha); [|exact Ha'|exact H]. intros c Hc. apply (copies_incl n cs cs' HC c Hc).
  Qed.

  Section Sel.
    Variables (datums datums' : crow -> bool) (sel : cview).
    Hypothesis Hs : expresses cs datums sel.
    Hypothesis Hs' : expresses cs' datums' sel.
    Theorem copies_metrics tol hm thrs m m' : few_labels cs ->
      report_metrics e tol hm thrs datums = Some m -> report_metrics e' tol hm thrs datums' = Some m' ->
      (forall l t, In t thrs -> counts_at (mt_counts m') l t = times n (counts_at (mt_counts m) l t)) /\
      (forall t a a', In (t, a) (mt_accuracy m) -> In (t, a') (mt_accuracy m') -> (a == a')%Q) /\
      (forall l t q q', In (l, t, Some q) (mt_precision m) -> In (l, t, Some q') (mt_precision m') -> (q == q')%Q) /\
      (forall l t q q', In (l, t, Some q) (mt_recall m) -> In (l, t, Some q') (mt_recall m') -> (q == q')%Q) /\
      (forall l t q q', In (l, t, Some q) (mt_f1 m) -> In (l, t, Some q') (mt_f1 m') -> (q == q')%Q).
    Proof.
      intros Hf Hm Hm'. assert (Hf' := few_copies Hf).
      split.
      { intros l t Ht. rewrite (read_counts cs Hd w e He tol hm thrs datums sel m l t Hf Hs Hm Ht), (read_counts cs' Hd' w e' He' tol hm thrs datums' sel m' l t Hf' Hs' Hm' Ht).
        apply counts_copies. }
      split.
      { intros t a a' Hi Hi'. apply In_nth_error in Hi, Hi'. destruct Hi as [k Hi], Hi' as [k' Hi'].
        destruct (read_accuracy cs Hd w e He tol hm thrs datums sel m k t a Hf Hs Hm Hi) as [_ ->].
        destruct (read_accuracy cs' Hd' w e' He' tol hm thrs datums' sel m' k' t a' Hf' Hs' Hm' Hi') as [_ ->].
        unfold data_accuracy. rewrite !(copies_countb n cs cs' HC). pose proof (ev_visible_pos cs Hd w e He) as X.
        symmetry. apply ratio_scale; [exact Hn|exact X]. }
      assert (Hne : thrs <> []) by (intros ->; cbn in Hm; discriminate).
      destruct (metrics_report cs Hd w e He Hf tol hm thrs datums sel Hs Hne) as (ls & _ & _ & E). cbn zeta in E.
      destruct (metrics_report cs' Hd' w e' He' Hf' tol hm thrs datums' sel Hs' Hne) as (ls' & _ & _ & E'). cbn zeta in E'.
      rewrite Hm in E. rewrite Hm' in E'. injection E as ->. injection E' as ->. cbn [mt_precision mt_recall mt_f1].
      split; [|split]; intros l t q q' Hi Hi'; apply In_table in Hi, Hi'; destruct Hi as (_ & _ & Hi), Hi' as (_ & _ & Hi'); injection Hi as ->; injection Hi' as ->;
        rewrite counts_copies; symmetry.
      - apply precision_times, Hn.
      - apply recall_times, Hn.
      - apply f1_same; [apply precision_times, Hn|apply recall_times, Hn].
    Qed.
    Theorem copies_confusion tol9 hm thrs o o' k t C U t' C' U' :
      report_confusion e tol9 hm thrs datums = Some o -> report_confusion e' tol9 hm thrs datums' = Some o' ->
      nth_error o k = Some (t, (C, U)) -> nth_error o' k = Some (t', (C', U')) ->
      t' = t /\ (forall g p, or0 (cell C' g p) = n * or0 (cell C g p)) /\ (forall g, or0 (sget U' g) = n * or0 (sget U g)).
    Proof.
      intros Ho Ho' Hk Hk'.
      destruct (read_confusion cs Hd w e He tol9 hm thrs datums sel o k t C U Hs Ho Hk) as (T & R1 & R2).
      destruct (read_confusion cs' Hd' w e' He' tol9 hm thrs datums' sel o' k t' C' U' Hs' Ho' Hk') as (T' & R1' & R2').
      split; [congruence|]. split; intros.
      - rewrite R1, R1'. apply (copies_countb n cs cs' HC).
      - rewrite R2, R2'. apply (copies_countb n cs cs' HC).
    Qed.
    Theorem copies_info : cls_info datums' e' = (n * fst (fst (cls_info datums e)), snd (fst (cls_info datums e)), n * snd (cls_info datums e)).
    Proof.
      rewrite (ev_info cs Hd w e He datums sel Hs), (ev_info cs' Hd' w e' He' datums' sel Hs'). cbn [fst snd].
      f_equal; [f_equal|].
      - apply (copies_sum n cs cs' HC).
      - apply Permutation_length, NoDup_Permutation; [apply labels_of_NoDup|apply labels_of_NoDup|apply labels_copies_In].
      - apply (copies_countb n cs cs' HC).
    Qed.
  End Sel.

  Theorem copies_rocauc l : In l (labels_of cs) -> safe_curve w cs e l -> safe_curve w cs' e' l ->
    top_nonzero (outcomes l (reduced w cs)) -> truths_seen w cs -> (Z.of_nat (length cs') < 2 ^ 64)%Z ->
    exists v v', sget (fst (report_rocauc e)) l = Some (Some v) /\ sget (fst (report_rocauc e')) l = Some (Some v') /\ (v == v')%Q.
  Proof.
    intros Hl S1 S2 Ht Hseen Hsz.
    destruct (In_nth_error _ _ Hl) as (i & N). pose proof (proj2 (labels_copies_In l) Hl) as Hl'. destruct (In_nth_error _ _ Hl') as (i' & N').
    apply (ev_labels cs Hd w e He) in N. apply (ev_labels cs' Hd' w e' He') in N'.
    assert (CO : copies n (outcomes l (reduced w cs)) (outcomes l (reduced w cs'))) by (apply outcomes_copies, reduced_copies, HC).
    assert (Ht' : top_nonzero (outcomes l (reduced w cs'))).
    { destruct Ht as [(x & Hx & X)|H]; [left; exists x; split; [apply (copies_In n _ _ CO Hn); exact Hx|exact X]|right].
      intros x Hx. apply H. apply (copies_incl n _ _ CO x Hx). }
    assert (K : forall cs0, Forall accepted cs0 -> (forall c, In c cs0 -> In c cs) -> keeps_truth cs0 w l).
    { intros cs0 A0 Hin c Hc Hv Hg. destruct (Hseen c (Hin c Hc) Hv) as [X1 X2]. rewrite viewed_predictions by (rewrite Forall_forall in A0; auto).
      apply filter_In. rewrite <- Hg. auto. }
    assert (K1 : keeps_truth cs w l) by (apply K; auto).
    assert (K2 : keeps_truth cs' w l) by (apply K; [exact Ha'|apply (copies_incl n cs cs' HC)]).
    assert (G1 := kept_positives cs Hd w e He l K1). assert (G2 := kept_positives cs' Hd' w e' He' l K2).
    assert (PN1 := pos_neg_length (outcomes l (reduced w cs))). assert (PN2 := pos_neg_length (outcomes l (reduced w cs'))).
    assert (CP := pos_copies n _ _ CO). assert (CN := neg_copies n _ _ CO).
    assert (LP := copies_length n _ _ CP). assert (LN := copies_length n _ _ CN).
    assert (Deg : pos_of (outcomes l (reduced w cs)) = [] \/ neg_of (outcomes l (reduced w cs)) = [] ->
      exists v v', sget (fst (report_rocauc e)) l = Some (Some v) /\ sget (fst (report_rocauc e')) l = Some (Some v') /\ (v == v')%Q).
    { intros H.
      destruct (absent_rocauc cs Hd w e He l i N) as (v & E & V). { destruct H as [H|H]; rewrite H in *; cbn [List.length] in *; [right; left|right; right]; lia. }
      destruct (absent_rocauc cs' Hd' w e' He' l i' N') as (v' & E' & V'). { destruct H as [H|H]; rewrite H in *; cbn [List.length] in *; [right; left|right; right]; lia. }
      exists v, v'. split; [exact (rocauc_entry w cs e Hd He l i v N E)|]. split; [exact (rocauc_entry w cs' e' Hd' He' l i' v' N' E')|]. rewrite V, V'. reflexivity. }
    destruct (pos_of (outcomes l (reduced w cs))) as [|p0 ps] eqn:EP; [apply Deg; auto|].
    destruct (neg_of (outcomes l (reduced w cs))) as [|q0 qs] eqn:EN; [apply Deg; auto|]. clear Deg.
    assert (Hsz1 : (Z.of_nat (length cs) < 2 ^ 64)%Z). { pose proof (copies_length n cs cs' HC). nia. }
    destruct (covered_rocauc cs Hd w e He l i N (S1 _ N) Ht K1 Hsz1) as (v & E & V & _); [rewrite EP; discriminate|rewrite EN; discriminate|].
    destruct (covered_rocauc cs' Hd' w e' He' l i' N' (S2 _ N') Ht' K2 Hsz) as (v' & E' & V' & _);
      [apply (copies_nil n _ _ CP Hn); discriminate|apply (copies_nil n _ _ CN Hn); discriminate|].
    exists v, v'. split; [exact (rocauc_entry w cs e Hd He l i v N E)|]. split; [exact (rocauc_entry w cs' e' Hd' He' l i' v' N' E')|].
    rewrite V, V', EP, EN, LP, LN, (mw_copies n _ _ CO). rewrite !Nat2Z.inj_mul, !inject_Z_mult.
    field. repeat split; intros X; unfold Qeq in X; cbn in X; lia.
  Qed.
End Cls.
