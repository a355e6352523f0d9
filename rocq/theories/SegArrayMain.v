(* The arrays of the segmentation loader and evaluator, continued: rows, totals, metrics
   and reports. *)
From Verif Require Import Prelude Counting CacheModel ClsModel FlowModel DetModel DetFlowModel DetArrayModel SegModel SegSpec DetArrayProofs ClsArrayMain SegProofs SegArrayModel SegArrayProofs.
From Coq Require Import QArith String Lia.
From Coq Require Import List.
Local Open Scope nat_scope.
Local Open Scope list_scope.

(* ------------------------------------------------------------------ *)
(** * The loader *)

Lemma seg_rows_arr s datum labels m :
  np_seg_rows s datum labels (arr (S (List.length labels)) m) = AOk (seg_rows s datum labels m).
Proof.
  unfold np_seg_rows, seg_rows.
  set (n := List.length labels).
  match goal with |- abind (amap ?f (seq 0 n)) ?k = AOk (flat_map ?g (seq 0 n) ++ ?z) => rewrite (amap_ok f g) end.
  - cbn [abind]. change 0%Z with (Z.of_nat 0). rewrite at_arr by lia. cbn [abind]. now rewrite flat_map_concat_map.
  - intros i Hi. apply in_seq in Hi.
    match goal with |- abind (amap ?f (seq 0 n)) ?k = AOk (flat_map ?g (seq 0 n) ++ ?z) => rewrite (amap_ok f g) end.
    + cbn [abind]. change 0%Z with (Z.of_nat 0). rewrite !at_arr by lia. cbn [abind]. now rewrite flat_map_concat_map.
    + intros j Hj. apply in_seq in Hj. rewrite at_arr by lia. reflexivity.
Qed.

Lemma index_of_lt x : forall L i, index_of x L = Some i -> i < List.length L.
Proof.
  induction L as [|y L IH]; intros i H; simpl in H; [discriminate|].
  destruct (String.eqb x y); [injection H as <-; simpl; lia|].
  destruct (index_of x L) as [j|] eqn:E; simpl in H; [|discriminate]. injection H as <-. specialize (IH j eq_refl). simpl. lia.
Qed.
Lemma add_label_lt L v : snd (add_label L v) < List.length (fst (add_label L v)) /\ List.length L <= List.length (fst (add_label L v)).
Proof.
  unfold add_label. destruct (index_of v L) as [i|] eqn:E; cbn [fst snd].
  - split; [eapply index_of_lt; exact E|lia].
  - rewrite app_length. simpl. lia.
Qed.
Lemma add_labels_lt vs : forall L, List.length (snd (add_labels L vs)) = List.length vs /\
  List.length L <= List.length (fst (add_labels L vs)) /\ forall i, In i (snd (add_labels L vs)) -> i < List.length (fst (add_labels L vs)).
Proof.
  induction vs as [|v vs IH]; intros L; simpl; [repeat split; [lia|easy]|].
  destruct (add_label L v) as [L1 i] eqn:E. pose proof (add_label_lt L v) as [H1 H2]. rewrite E in H1, H2. cbn [fst snd] in *.
  destruct (add_labels L1 vs) as [L2 is] eqn:E2. specialize (IH L1). rewrite E2 in IH. cbn [fst snd] in *. destruct IH as (K1 & K2 & K3).
  simpl. repeat split; [lia|lia|]. intros j [<-|Hj]; [lia|now apply K3].
Qed.

Lemma np_masks_ok s bs : (forall b, In b bs -> Z.of_nat (List.length (bm_bits b)) = s) ->
  np_masks s bs = AOk (stack_masks s bs).
Proof.
  intros H. unfold np_masks, stack_masks. destruct bs as [|b bs]; [reflexivity|]. unfold np_stack. cbn [map].
  replace (forallb _ _) with true; [reflexivity|]. symmetry. apply forallb_forall. intros x Hx. apply in_map_iff in Hx. destruct Hx as (b' & <- & Hb').
  apply Nat.eqb_eq. pose proof (H b (or_introl eq_refl)). pose proof (H b' (or_intror Hb')). lia.
Qed.
Lemma stack_masks_facts s bs : (0 <= s)%Z -> (forall b, In b bs -> Z.of_nat (List.length (bm_bits b)) = s) ->
  stack_masks s bs <> [] /\ Forall (fun m => List.length m = Z.to_nat s) (stack_masks s bs) /\
  (forall ls : list nat, List.length ls = List.length bs -> ls = [] /\ List.length (stack_masks s bs) = 1 \/ List.length ls = List.length (stack_masks s bs)).
Proof.
  intros Hs H. unfold stack_masks. destruct bs as [|b bs].
  - repeat split; [easy| |].
    + constructor; [apply repeat_length|constructor].
    + intros ls Hl. left. destruct ls; [easy|discriminate].
  - repeat split; [easy| |].
    + rewrite Forall_forall. intros x Hx. apply in_map_iff in Hx. destruct Hx as (b' & <- & Hb'). specialize (H b' Hb'). lia.
    + intros ls Hl. right. now rewrite map_length.
Qed.

Lemma add_one_arr l s : sized s -> np_seg_add_one l s = AOk (seg_add_one l s).
Proof.
  intros [Hs HB]. unfold np_seg_add_one, seg_add_one.
  destruct (add_labels (sl_labels l) (map bm_label (sg_gts s))) as [L1 gls] eqn:E1.
  destruct (add_labels L1 (map bm_label (sg_pds s))) as [L2 pls] eqn:E2.
  destruct (add_labels_lt (map bm_label (sg_gts s)) (sl_labels l)) as (A1 & A2 & A3). rewrite E1 in A1, A2, A3. cbn [fst snd] in *.
  destruct (add_labels_lt (map bm_label (sg_pds s)) L1) as (B1 & B2 & B3). rewrite E2 in B1, B2, B3. cbn [fst snd] in *.
  rewrite map_length in A1, B1.
  assert (HG : forall b, In b (sg_gts s) -> Z.of_nat (List.length (bm_bits b)) = sg_size s) by (intros b Hb; apply HB; now left).
  assert (HP : forall b, In b (sg_pds s) -> Z.of_nat (List.length (bm_bits b)) = sg_size s) by (intros b Hb; apply HB; now right).
  rewrite (np_masks_ok _ _ HG), (np_masks_ok _ _ HP). cbn [abind].
  destruct (stack_masks_facts (sg_size s) (sg_gts s) ltac:(lia) HG) as (G1 & G2 & G3).
  destruct (stack_masks_facts (sg_size s) (sg_pds s) ltac:(lia) HP) as (P1 & P2 & P3).
  rewrite (intermediates_arr (Z.to_nat (sg_size s))); [|assumption..|now apply G3|now apply P3|].
  - cbn [abind]. rewrite seg_rows_arr. reflexivity.
  - intros i [Hi|Hi]; [specialize (A3 i Hi)|specialize (B3 i Hi)]; lia.
Qed.
Theorem add_data_arr ss : forall l, Forall sized ss -> np_seg_add_data l ss = AOk (seg_add_data l ss).
Proof.
  unfold np_seg_add_data, seg_add_data. induction ss as [|s ss IH]; intros l H; simpl; [reflexivity|]. inversion H; subst.
  rewrite add_one_arr by assumption. simpl. now apply IH.
Qed.

(* ------------------------------------------------------------------ *)
(** * The confusion matrix of the evaluator *)

Definition mincr (m : matrix) (i j : nat) (v : Z) : matrix := mset m i j (m i j + v)%Z.
Lemma incr_arr n m i j v : i < n -> j < n -> np_incr (arr n m) (Z.of_nat i, Z.of_nat j) v = AOk (arr n (mincr m i j v)).
Proof. intros Hi Hj. unfold np_incr. cbn [fst snd]. rewrite at_arr by assumption. cbn [abind]. now apply put_arr. Qed.
Lemma mincr_at m i j v a b : mincr m i j v a b = if Nat.eqb i a && Nat.eqb j b then u64 (m a b + v) else m a b.
Proof. unfold mincr, mset. destruct (Nat.eqb_spec i a) as [->|]; destruct (Nat.eqb_spec j b) as [->|]; reflexivity. Qed.

Lemma row_loop N n m i (f : nat -> Z) : S i < N -> n < N -> forall k, k <= n ->
  afold (fun m j => np_incr m (Z.of_nat (S i), Z.of_nat (S j)) (f j)) (seq 0 k) (arr N m)
  = AOk (arr N (fun a b => if Nat.eqb a (S i) && (0 <? b) && (b <=? k) then u64 (m a b + f (pred b)) else m a b)).
Proof.
  intros Hi Hn. induction k as [|k IH]; intros Hk.
  - simpl. f_equal. apply arr_ext. intros a b _ _. destruct b; simpl; now rewrite ?andb_false_r.
  - rewrite seq_S, afold_app, IH by lia. cbn [abind afold Nat.add]. rewrite incr_arr by lia. cbn [abind]. f_equal. apply arr_ext. intros a b _ _.
    rewrite mincr_at. destruct (Nat.eqb_spec (S i) a) as [<-|Na].
    + rewrite Nat.eqb_refl. destruct (Nat.eqb_spec (S k) b) as [<-|Nb].
      * cbn [andb]. rewrite (proj2 (Nat.leb_gt (S k) k)) by lia. rewrite (proj2 (Nat.leb_le (S k) (S k))) by lia. reflexivity.
      * cbn [andb]. destruct (Nat.leb_spec b k); destruct (Nat.leb_spec b (S k)); try reflexivity; lia.
    + cbn [andb]. destruct (Nat.eqb_spec a (S i)); [congruence|]. reflexivity.
Qed.

Ltac compare_all :=
  repeat (match goal with
          | |- context [Nat.eqb ?x ?y] => destruct (Nat.eqb_spec x y)
          | |- context [Nat.ltb ?x ?y] => destruct (Nat.ltb_spec x y)
          | |- context [Nat.leb ?x ?y] => destruct (Nat.leb_spec x y)
          end; cbn [andb orb]; try (exfalso; lia));
  repeat match goal with H : S ?x = S ?y |- _ => injection H as H end; subst; try reflexivity; try (exfalso; lia).
Section Table.
  Variables (n : nat) (v : nat -> nat -> Z).
  Definition touched (k a b : nat) : bool := (0 <? a) && (a <=? k) || (Nat.eqb a 0 && (0 <? b) && (b <=? k)).
  Lemma outer_loop m k : k <= n ->
    afold (fun m i =>
      abind (afold (fun m j => np_incr m (Z.of_nat (S i), Z.of_nat (S j)) (v (S i) (S j))) (seq 0 n) m) (fun m =>
      abind (np_incr m (Z.of_nat (S i), 0%Z) (v (S i) 0)) (fun m =>
      np_incr m (0%Z, Z.of_nat (S i)) (v 0 (S i))))) (seq 0 k) (arr (S n) m)
    = AOk (arr (S n) (fun a b => if touched k a b then u64 (m a b + v a b) else m a b)).
  Proof.
    induction k as [|k IH]; intros Hk.
    - simpl. f_equal. apply arr_ext. intros a b _ _. unfold touched. destruct a, b; reflexivity.
    - rewrite seq_S, afold_app, IH by lia. cbn [abind afold Nat.add].
      rewrite (row_loop (S n) n _ k (fun j => v (S k) (S j))) by lia. cbn [abind].
      change 0%Z with (Z.of_nat 0). rewrite incr_arr by lia. cbn [abind]. rewrite incr_arr by lia. cbn [abind]. f_equal.
      apply arr_ext. intros a b Ha Hb. rewrite !mincr_at. unfold touched.
      destruct a as [|a]; destruct b as [|b]; cbn [pred]; compare_all.
  Qed.
End Table.

Definition cell_total (rows : list srow) (i j : nat) : Z := usum (filter (fun r => at_index i (s_gt r) && at_index j (s_pd r)) rows).
Lemma table_arr n rows m : np_seg_table n rows (arr (S n) m) = AOk (arr (S n) (fun a b => u64 (m a b + cell_total rows a b))).
Proof.
  unfold np_seg_table. change (0, 0)%Z with (Z.of_nat 0, Z.of_nat 0) at 1. rewrite incr_arr by lia. cbn [abind].
  rewrite (outer_loop n (cell_total rows)) by lia. f_equal. apply arr_ext. intros a b Ha Hb. rewrite mincr_at. unfold touched.
  destruct a as [|a]; destruct b as [|b]; compare_all.
Qed.
Lemma u64_add a b : u64 (u64 a + b) = u64 (a + b).
Proof. unfold u64. now rewrite Zplus_mod_idemp_l. Qed.
Lemma u64_idem a : u64 (u64 a) = u64 a.
Proof. unfold u64. apply Zmod_mod. Qed.
Lemma matrix_arr n tables datums : np_seg_matrix n tables datums = AOk (arr (S n) (seg_matrix tables datums)).
Proof.
  unfold np_seg_matrix. rewrite zeros_arr.
  assert (H : forall ts m, (forall i j, u64 (m i j) = m i j) ->
            afold (fun m t => np_seg_table n (filter (eval_expr datums) t) m) ts (arr (S n) m)
            = AOk (arr (S n) (fun i j => u64 (m i j + zsum (map (fun t => cell_total (filter (eval_expr datums) t) i j) ts))))).
  { induction ts as [|t ts IH]; intros m Hm; simpl.
    - f_equal. apply arr_ext. intros. now rewrite Z.add_0_r, Hm.
    - rewrite table_arr. cbn [abind]. rewrite IH by (intros; apply u64_idem). f_equal. apply arr_ext. intros. rewrite u64_add. f_equal. lia. }
  rewrite H by (intros; reflexivity). reflexivity.
Qed.

(* ------------------------------------------------------------------ *)
(** * compute_metrics *)

Lemma tl_seq {A} (f : nat -> A) n : tl (map f (seq 0 (S n))) = map (fun i => f (S i)) (seq 0 n).
Proof. rewrite seq_S_map. cbn [map tl]. apply map_map. Qed.
Lemma arr_tl {A} n (m : nat -> nat -> A) : tl (arr (S n) m) = map (fun i => map (m (S i)) (seq 0 (S n))) (seq 0 n).
Proof. unfold arr. apply tl_seq. Qed.
Lemma arr_inner {A} n (m : nat -> nat -> A) : map (@tl A) (tl (arr (S n) m)) = arr n (fun i j => m (S i) (S j)).
Proof. rewrite arr_tl, map_map. apply map_ext. intros. apply tl_seq. Qed.
Lemma map2_seq {A B C} (h : A -> B -> C) f g n : map2 h (map f (seq 0 n)) (map g (seq 0 n)) = map (fun i => h (f i) (g i)) (seq 0 n).
Proof. apply map2_maps. Qed.
Lemma diagonal_arr {A} n (m : nat -> nat -> A) : np_diagonal (arr n m) = AOk (map (fun i => m i i) (seq 0 n)).
Proof.
  unfold np_diagonal. unfold arr at 2. rewrite map_length, seq_length. apply (amap_ok _ (fun i => m i i)). intros i Hi. apply in_seq in Hi.
  apply at_arr; lia.
Qed.
Definition tables_of (n : nat) (m : matrix) : sarrays :=
  MkSA (map (m_precision n m) (seq 0 n)) (map (m_recall n m) (seq 0 n)) (map (m_f1 n m) (seq 0 n)) (m_accuracy n m)
       (arr n (m_iou n m)) (map (m_unmatched_pd n m) (seq 0 n)) (map (m_unmatched_gt n m) (seq 0 n)).
Lemma metrics_arr n m : np_seg_metrics (arr (S n) m) = AOk (tables_of n m).
Proof.
  unfold np_seg_metrics.
  assert (Egt : map (fun row => u64 (zsum row)) (tl (arr (S n) m)) = map (fun i => mrow n m (S i)) (seq 0 n)).
  { rewrite arr_tl, map_map. reflexivity. }
  assert (Epd : map u64 (reduce0 Z.add (map (@tl Z) (arr (S n) m))) = map (fun j => mcol n m (S j)) (seq 0 n)).
  { unfold arr. rewrite map_map. rewrite (map_ext _ (fun i => map (fun j => m i (S j)) (seq 0 n))) by (intros; apply tl_seq).
    rewrite (reduce0_sum (fun i j => m i (S j))) by easy. rewrite map_map. reflexivity. }
  rewrite Egt, Epd, arr_inner.
  change (np_get (arr (S n) m) 0%Z) with (np_get (map (fun i => map (m i) (seq 0 (S n))) (seq 0 (S n))) (Z.of_nat 0)). rewrite get_seq by lia. cbn [abind].
  rewrite arr_tl. rewrite (amap_ok _ (fun row => hd 0%Z row)).
  2:{ intros row Hr. apply in_map_iff in Hr. destruct Hr as (i & <- & _). change 0%Z with (Z.of_nat 0). rewrite get_seq by lia. reflexivity. }
  cbn [abind]. rewrite map_map. rewrite !diagonal_arr. cbn [abind]. change (np_at (arr (S n) m) 0%Z 0%Z) with (np_at (arr (S n) m) (Z.of_nat 0) (Z.of_nat 0)). rewrite at_arr by lia. cbn [abind].
  unfold tables_of. rewrite !tl_seq. f_equal.
  rewrite !map2_seq. unfold arr. rewrite !map2_seq.
  f_equal.
  - unfold m_accuracy. f_equal. f_equal. rewrite map_map. reflexivity.
  - apply map_ext. intros i. rewrite !map2_seq. reflexivity.
Qed.

(* ------------------------------------------------------------------ *)
(** * The report *)

Definition lift {A} (o : option A) : ares A := match o with Some a => AOk a | None => ARaise OutOfBounds end.
Lemma amap_lift {A B} (f : A -> ares B) (g : A -> option B) l : (forall a, In a l -> f a = lift (g a)) -> amap f l = lift (all_some (map g l)).
Proof.
  induction l as [|a l IH]; intros H; simpl; [reflexivity|]. rewrite (H a (or_introl eq_refl)). destruct (g a) as [b|]; simpl; [|reflexivity].
  rewrite IH by (intros x Hx; apply H; now right). destruct (all_some (map g l)); reflexivity.
Qed.
Lemma lift_bind {A B} (o : option A) (f : A -> option B) : abind (lift o) (fun a => lift (f a)) = lift (match o with Some a => f a | None => None end).
Proof. now destruct o. Qed.
Lemma np_label_lift d i : np_label d i = lift (ldict_get d (Z.of_nat i)).
Proof. reflexivity. Qed.
Lemma ranged_lift d n (f : nat -> ares Q) (g : nat -> Q) : (forall i, i < n -> f i = AOk (g i)) ->
  amap (fun i => abind (np_label d i) (fun l => abind (f i) (fun q => AOk (l, q)))) (seq 0 n) = lift (by_range d n g).
Proof.
  intros H. unfold by_range. apply amap_lift. intros i Hi. apply in_seq in Hi. rewrite np_label_lift, H by lia. cbn [abind].
  now destruct (ldict_get d (Z.of_nat i)).
Qed.
Lemma two_stage {V} (s : list nat) (g : nat -> option (option string)) (f : nat -> option V) :
  amap (fun i => abind (lift (g i)) (fun l => abind (lift (f i)) (fun r => AOk (l, r)))) s
  = lift (match all_some (map (fun i => option_map (fun l => (l, f i)) (g i)) s) with
          | Some cm => all_some (map (fun x => option_map (fun r => (fst x, r)) (snd x)) cm)
          | None => None
          end).
Proof.
  induction s as [|i s IH]; simpl; [reflexivity|]. rewrite IH. destruct (g i) as [l|]; simpl; [|reflexivity].
  destruct (all_some (map (fun i => option_map (fun l => (l, f i)) (g i)) s)) as [cm|]; simpl.
  - destruct (f i) as [r|]; simpl; [|reflexivity]. destruct (all_some (map _ cm)); reflexivity.
  - destruct (f i); reflexivity.
Qed.
Lemma items_lift d n (f : Z -> ares Q) (g : nat -> Q) : (forall kv, In kv d -> (0 <= fst kv)%Z) ->
  (forall k, (0 <= k)%Z -> f k = lift (if (k <? Z.of_nat n)%Z then Some (g (Z.to_nat k)) else None)) ->
  amap (fun kl => abind (f (fst kl)) (fun q => AOk (snd kl, q))) d = lift (by_items d n g).
Proof.
  intros H0 H. unfold by_items. apply amap_lift. intros kv Hkv. specialize (H0 kv Hkv). rewrite H by exact H0.
  destruct (Z.leb_spec 0 (fst kv)); [|lia]. cbn [andb]. now destruct (fst kv <? Z.of_nat n)%Z.
Qed.
Lemma get_lift {A} (f : nat -> A) n k : (0 <= k)%Z -> np_get (map f (seq 0 n)) k = lift (if (k <? Z.of_nat n)%Z then Some (f (Z.to_nat k)) else None).
Proof.
  intros H. destruct (Z.ltb_spec k (Z.of_nat n)) as [L|L].
  - rewrite <- (Z2Nat.id k) at 1 by exact H. rewrite get_seq by lia. reflexivity.
  - unfold np_get, np_pos. rewrite map_length, seq_length. destruct (Z.leb_spec 0 k); [|lia]. destruct (Z.ltb_spec k (Z.of_nat n)); [lia|reflexivity].
Qed.

Lemma unpack_arr d m : (forall kv, In kv d -> (0 <= fst kv)%Z) ->
  np_seg_unpack d (tables_of (List.length d) m) = lift (seg_report d m).
Proof.
  intros H0. unfold np_seg_unpack. set (n := List.length d). unfold tables_of. cbn [sa_precision sa_recall sa_f1 sa_accuracy sa_ious sa_unmatched_pd sa_unmatched_gt].
  assert (Ecm : amap (fun i => abind (np_label d i) (fun l =>
                        abind (amap (fun j => abind (np_label d j) (fun l' => abind (np_at (arr n (m_iou n m)) (Z.of_nat i) (Z.of_nat j)) (fun q => AOk (l', q)))) (seq 0 n)) (fun row =>
                        AOk (l, row)))) (seq 0 n)
    = lift (match by_range d n (fun i => by_range d n (m_iou n m i)) with
            | Some cm => all_some (map (fun x => option_map (fun r => (fst x, r)) (snd x)) cm) | None => None end)).
  { unfold by_range at 1. rewrite <- two_stage.
    assert (HX : forall l (f g : nat -> ares (option string * list (option string * Q))), (forall i, In i l -> f i = g i) -> amap f l = amap g l).
    { clear. induction l as [|a l IH]; intros f g H; simpl; [reflexivity|]. rewrite (H a (or_introl eq_refl)). f_equal. 
      rewrite (IH f g) by (intros i Hi; apply H; now right). reflexivity. }
    apply HX. intros i Hi. apply in_seq in Hi. rewrite np_label_lift.
    rewrite (ranged_lift d n _ (m_iou n m i)) by (intros j Hj; apply at_arr; lia). reflexivity. }
  rewrite Ecm.
  rewrite (ranged_lift d n _ (m_unmatched_pd n m)) by (intros; now apply get_seq).
  rewrite (ranged_lift d n _ (m_unmatched_gt n m)) by (intros; now apply get_seq).
  rewrite diagonal_arr.
  rewrite (items_lift d n _ (m_precision n m) H0) by (intros; now apply get_lift).
  rewrite (items_lift d n _ (m_recall n m) H0) by (intros; now apply get_lift).
  rewrite (items_lift d n _ (m_f1 n m) H0) by (intros; now apply get_lift).
  rewrite (items_lift d n (fun k => np_at (arr n (m_iou n m)) k k) (fun i => m_iou n m i i) H0).
  2:{ intros k Hk. unfold np_at, arr. rewrite get_lift by exact Hk. destruct (Z.ltb_spec k (Z.of_nat n)); cbn [lift abind]; [|reflexivity].
      rewrite get_lift by exact Hk. destruct (Z.ltb_spec k (Z.of_nat n)); [reflexivity|lia]. }
  unfold seg_report. fold n.
  assert (Em : match map (fun i => m_iou n m i i) (seq 0 n) with [] => None | _ :: _ =>
       Some (fold_right Qplus 0%Q (map (fun i => m_iou n m i i) (seq 0 n)) / inject_Z (Z.of_nat (List.length (map (fun i => m_iou n m i i) (seq 0 n)))))%Q end = m_miou n m).
  { unfold m_miou. rewrite map_length, seq_length. destruct n; reflexivity. }
  cbn [abind]. rewrite Em.
  destruct (by_range d n (fun i => by_range d n (m_iou n m i))) as [cm|]; cbn [lift abind]; [|reflexivity].
  destruct (all_some (map _ cm)) as [cm'|]; cbn [lift abind];
  destruct (by_range d n (m_unmatched_pd n m)); cbn [lift abind]; try reflexivity;
  destruct (by_range d n (m_unmatched_gt n m)); cbn [lift abind]; try reflexivity;
  destruct (by_items d n (m_precision n m)); cbn [lift abind]; try reflexivity;
  destruct (by_items d n (m_recall n m)); cbn [lift abind]; try reflexivity;
  destruct (by_items d n (m_f1 n m)); cbn [lift abind]; try reflexivity;
  destruct (by_items d n (fun i => m_iou n m i i)); cbn [lift abind]; reflexivity.
Qed.

Theorem seg_compute_arr e datums : (forall kv, In kv (se_labels e) -> (0 <= fst kv)%Z) ->
  np_seg_compute e datums = lift (seg_compute e datums).
Proof. intros H. unfold np_seg_compute, seg_compute. rewrite matrix_arr. cbn [abind]. rewrite metrics_arr. cbn [abind]. now apply unpack_arr. Qed.
