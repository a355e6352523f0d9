(* Unpacking of the arrays of compute_precision_recall. *)
From Verif Require Import Prelude Counting CacheModel CacheSpec ClsModel ClsSpec FlowModel
  DetModel DetSpec DetFlowModel DetReportModel DetScoreModel DetReorderSpec DetReorderProofs
  DetArrayModel DetArraySpec DetArrayProofs DetArrayMain ClsArrayMain DetUnpackModel DetUnpackSpec.
From Coq Require Import QArith Qminmax Lia.
From Coq Require String.
Local Open Scope nat_scope.
Local Open Scope list_scope.
Local Notation length := List.length (only parsing).
Local Notation concat := List.concat (only parsing).

(* ---------------------------------------------------------------- lists *)
Lemma amap_map {A B C} (f : B -> ares C) (h : A -> B) l : amap f (map h l) = amap (fun a => f (h a)) l.
Proof. induction l as [|a l IH]; [reflexivity|]. cbn. rewrite IH. reflexivity. Qed.
Lemma amap_ext {A B} (f g : A -> ares B) l : (forall a, In a l -> f a = g a) -> amap f l = amap g l.
Proof. induction l as [|a l IH]; intros H; [reflexivity|]. cbn. rewrite (H a (or_introl eq_refl)), IH; [reflexivity|]. intros; apply H; right; assumption. Qed.
Lemma enum_map {A B} (f : nat -> B) (g : A -> B) l : forall k, (forall j a, nth_error l j = Some a -> f (k + j) = g a) -> map f (seq k (length l)) = map g l.
Proof.
  induction l as [|a l IH]; intros k H; [reflexivity|]. cbn. f_equal.
  - rewrite <- (H 0 a eq_refl). f_equal. lia.
  - apply IH. intros j b Hj. rewrite <- (H (S j) b Hj). f_equal. lia.
Qed.
Lemma amap_as {A B} (f : A -> ares B) l : forall bs, map f l = map AOk bs -> amap f l = AOk bs.
Proof. induction l as [|a l IH]; intros [|b bs] H; try discriminate; [reflexivity|]. cbn in *. injection H as E H. rewrite E. cbn. rewrite (IH bs H). reflexivity. Qed.
Lemma amap_enum {A B} (f : nat -> ares B) (g : A -> B) l : (forall j a, nth_error l j = Some a -> f j = AOk (g a)) -> amap f (seq 0 (length l)) = AOk (map g l).
Proof. intros H. apply amap_as. rewrite map_map. apply enum_map. exact H. Qed.
Lemma amap_enumerate {A B} (f : nat * A -> ares B) (g : A -> B) l :
  (forall j a, nth_error l j = Some a -> f (j, a) = AOk (g a)) -> amap f (combine (seq 0 (length l)) l) = AOk (map g l).
Proof.
  intros H. apply amap_as. rewrite map_map. assert (G : forall l' k, (forall j a, nth_error l' j = Some a -> f (k + j, a) = AOk (g a)) -> map f (combine (seq k (length l')) l') = map (fun x => AOk (g x)) l').
  { induction l' as [|a l' IH]; intros k K; [reflexivity|]. cbn. f_equal; [rewrite <- (K 0 a eq_refl), Nat.add_0_r; reflexivity|]. apply IH. intros j b Hj. rewrite <- (K (S j) b Hj). do 2 f_equal. lia. }
  apply (G l 0). exact H.
Qed.
Lemma np_get_nth {A} (a : list A) k x : nth_error a k = Some x -> np_get a (Z.of_nat k) = AOk x.
Proof.
  intros H. assert (k < length a) by (apply nth_error_Some; congruence). unfold np_get. rewrite np_pos_inside by (unfold inside; lia). rewrite Nat2Z.id, H. reflexivity.
Qed.
Lemma map_tab {A B} (h : A -> B) n (f : Z -> A) : map h (tab n f) = tab n (fun l => h (f l)).
Proof. unfold tab. rewrite map_map. reflexivity. Qed.
Lemma tab_inj {A} n (f g : Z -> A) : tab n f = tab n g -> forall l, inside n l -> f l = g l.
Proof.
  intros H l Hl. assert (E : np_get (tab n f) l = np_get (tab n g) l) by (rewrite H; reflexivity). rewrite !np_get_tab in E by exact Hl. apply aok_inj in E. exact E.
Qed.
Lemma numbers_some qs : numbers (map Some qs) = Some qs.
Proof. induction qs as [|q qs IH]; [reflexivity|]. cbn. rewrite IH. reflexivity. Qed.
Lemma np_mean_some qs : np_mean (map Some qs) = qmean qs.
Proof. unfold np_mean. rewrite numbers_some. reflexivity. Qed.
Lemma qmean_Forall2 a b : Forall2 Qeq a b -> same_number (qmean a) (qmean b).
Proof. intros H. apply qmean_same. exists a. split; [reflexivity|exact H]. Qed.

(* ---------------------------------------------------------------- the descending loop *)
Lemma ap_loop_bins (f : nat -> Q * Z) bins : forall mq mz s,
  np_ap_loop (map f bins) mq mz s = (ap_loop (fun b => fst (f b)) bins mq s, combine (run_max (fun b => fst (f b)) bins mq) (run_zmax (fun b => snd (f b)) bins mz)).
Proof. induction bins as [|b bins IH]; intros; [reflexivity|]. cbn. rewrite IH. reflexivity. Qed.
Lemma run_max_length c bins : forall m, length (run_max c bins m) = length bins.
Proof. induction bins as [|b bins IH]; intros; cbn; [reflexivity|]. f_equal. apply IH. Qed.
Lemma run_zmax_length c bins : forall m, length (run_zmax c bins m) = length bins.
Proof. induction bins as [|b bins IH]; intros; cbn; [reflexivity|]. f_equal. apply IH. Qed.
Lemma combine_fst {A B} (a : list A) : forall (b : list B), length a = length b -> map fst (combine a b) = a.
Proof. induction a as [|x a IH]; intros [|y b] H; try discriminate; [reflexivity|]. cbn in *. rewrite IH by lia. reflexivity. Qed.
Lemma combine_snd {A B} (a : list A) : forall (b : list B), length a = length b -> map snd (combine a b) = b.
Proof. induction a as [|x a IH]; intros [|y b] H; try discriminate; [reflexivity|]. cbn in *. rewrite IH by lia. reflexivity. Qed.
Lemma run_max_same c c' bins : (forall b, In b bins -> (c b == c' b)%Q) -> forall m m', (m == m')%Q -> Forall2 Qeq (run_max c bins m) (run_max c' bins m').
Proof.
  induction bins as [|b bins IH]; intros H m m' Hm; cbn; constructor.
  - rewrite Hm, (H b (or_introl eq_refl)). reflexivity.
  - apply IH; [intros; apply H; right; assumption|]. rewrite Hm, (H b (or_introl eq_refl)). reflexivity.
Qed.
Lemma ap_loop_same c c' bins : (forall b, In b bins -> (c b == c' b)%Q) -> forall m m' s s', (m == m')%Q -> (s == s')%Q -> (ap_loop c bins m s == ap_loop c' bins m' s')%Q.
Proof.
  induction bins as [|b bins IH]; intros H m m' s s' Hm Hs; cbn; [exact Hs|].
  apply IH; [intros; apply H; right; assumption| |]; rewrite ?Hs, Hm, (H b (or_introl eq_refl)); reflexivity.
Qed.
Lemma run_zmax_same c c' bins : (forall b, In b bins -> c b = c' b) -> forall m, run_zmax c bins m = run_zmax c' bins m.
Proof. induction bins as [|b bins IH]; intros H m; cbn; [reflexivity|]. rewrite (H b (or_introl eq_refl)). f_equal. apply IH. intros; apply H; right; assumption. Qed.
Lemma Forall2_rev {A B} (R : A -> B -> Prop) a b : Forall2 R a b -> Forall2 R (rev a) (rev b).
Proof. intros H. induction H; cbn; [constructor|]. apply Forall2_app; [assumption|]. constructor; [assumption|constructor]. Qed.

Section Loop.
  Variables (f : nat -> Q * Z) (c : nat -> Q) (z : nat -> Z).
  Hypothesis H : forall b, b <= 100 -> (fst (f b) == c b)%Q /\ snd (f b) = z b.
  Local Notation bins := (rev (seq 0 101)).
  Lemma bins_le b : In b bins -> b <= 100.
  Proof. intros Hb. apply in_rev, in_seq in Hb. lia. Qed.
  Lemma np_ap_value : (fst (np_ap (map f (seq 0 101))) == average_precision c)%Q.
  Proof.
    unfold np_ap, average_precision. rewrite <- map_rev. rewrite ap_loop_bins. cbn [fst].
    rewrite (ap_loop_same _ c bins) with (m' := 0%Q) (s' := 0%Q); [reflexivity| |reflexivity|reflexivity]. intros b Hb. apply H, bins_le, Hb.
  Qed.
  Lemma np_ap_curve : Forall2 Qeq (map fst (snd (np_ap (map f (seq 0 101))))) (rev (run_max c bins 0)) /\
    map snd (snd (np_ap (map f (seq 0 101)))) = rev (run_zmax z bins 0%Z).
  Proof.
    unfold np_ap. rewrite <- map_rev. rewrite ap_loop_bins. cbn [snd]. rewrite !map_rev.
    rewrite combine_fst, combine_snd by (rewrite run_max_length, run_zmax_length; reflexivity). split.
    - apply Forall2_rev, run_max_same; [|reflexivity]. intros b Hb. apply H, bins_le, Hb.
    - f_equal. apply run_zmax_same. intros b Hb. apply H, bins_le, Hb.
  Qed.
End Loop.

(* ---------------------------------------------------------------- label maps *)
Section Items.
  Variables (labels : ldict) (n : nat).
  Hypothesis Hk : forall kl, In kl labels -> inside n (fst kl).
  Lemma items_tab {V} (f : Z -> V) : np_items labels (tab n f) = AOk (map (fun kl => (snd kl, f (fst kl))) labels).
  Proof. unfold np_items. apply amap_ok. intros kl Hin. rewrite np_get_tab by (apply Hk, Hin). reflexivity. Qed.
  Lemma rows_items {A V} (f : A -> Z -> V) ts : forall xs, np_rows_items labels (combine ts (map (fun a => tab n (f a)) xs)) =
    AOk (concat (map (fun tx => map (fun kl => (fst tx, snd kl, f (snd tx) (fst kl))) labels) (combine ts xs))).
  Proof.
    intros xs. unfold np_rows_items.
    assert (E : combine ts (map (fun a => tab n (f a)) xs) = map (fun tx => (fst tx, tab n (f (snd tx)))) (combine ts xs)).
    { revert xs. induction ts as [|t ts IH]; intros [|x xs]; cbn; try reflexivity. f_equal. apply IH. }
    rewrite E, amap_map. erewrite amap_ok; [cbn [abind]; reflexivity|]. intros tx _. cbn beta. cbn [fst snd]. rewrite items_tab. cbn [abind]. rewrite map_map. reflexivity.
  Qed.
  Lemma columns_tab {A} (f : A -> Z -> option Q) xs : np_columns_mean n (map (fun a => tab n (f a)) xs) = AOk (tab n (fun l => np_mean (map (fun a => f a l) xs))).
  Proof.
    unfold np_columns_mean. rewrite (amap_ok _ (fun k => np_mean (map (fun a => f a (Z.of_nat k)) xs))); [reflexivity|].
    intros k Hin. apply in_seq in Hin. cbn beta. rewrite amap_map. rewrite (amap_ok _ (fun a => f a (Z.of_nat k))); [reflexivity|].
    intros a _. apply np_get_tab. unfold inside. lia.
  Qed.
  Lemma concat_listed {A V} (R : Z -> A -> Prop) (f : A -> Z -> V) (P : Z -> Z -> V -> Prop) ts xs : Forall2 R ts xs ->
    (forall t x l, R t x -> inside n l -> P t l (f x l)) ->
    Forall2 (fun tl x => fst (fst x) = fst tl /\ snd (fst x) = snd (snd tl) /\ P (fst tl) (fst (snd tl)) (snd x)) (list_prod ts labels)
      (concat (map (fun tx => map (fun kl => (fst tx, snd kl, f (snd tx) (fst kl))) labels) (combine ts xs))).
  Proof.
    intros F HP. induction F as [|t x ts xs Ht F IH]; [constructor|]. cbn [list_prod combine map List.concat]. apply Forall2_app; [|exact IH].
    clear IH F. cbn [fst snd]. revert Hk. induction labels as [|kl ls IHl]; intros Hks; cbn [map]; constructor.
    - cbn [fst snd]. split; [reflexivity|]. split; [reflexivity|]. apply HP; [exact Ht|]. apply Hks. left. reflexivity.
    - apply IHl. intros; apply Hks; right; assumption.
  Qed.
End Items.

(* ---------------------------------------------------------------- all lists *)
Section Finish.
  Variables (eps : Z) (e : deval) (datums : drow -> bool) (ious scores : list Z).
  Local Notation labels := (de_labels e).
  Local Notation n := (length (de_labels e)).
  Hypothesis Hk : forall kl, In kl labels -> inside n (fst kl).
  Hypothesis Hl : labels <> [].
  Hypothesis Hi : ious <> [].
  Local Notation g := (rep_gts e datums).
  Local Notation tp := (rep_tp eps e datums).
  Local Notation fp := (rep_fp eps e datums).
  Definition the_cell (t s l : Z) : dcell :=
    MkDCell (tp t s l) (fp t s l) (rep_fn eps e datums t s l) (rep_precision eps e datums t s l) (rep_recall eps e datums t s l) (rep_f1 eps e datums t s l).
  Lemma cell_eq t s l : np_cell (g l) (tp t s l, fp t s l) = the_cell t s l.
  Proof.
    unfold np_cell, the_cell, rep_fn, rep_precision, rep_recall, rep_f1, rep_tp, rep_fp. cbn [fst snd]. destruct (rep_counts eps e datums t s l). reflexivity.
  Qed.
  Definition counts_arr : acounts := map (fun t => map (fun s => (tab n (tp t s), tab n (fp t s))) scores) ious.
  Lemma cells_eq : map (map (np_cells (tab n g))) counts_arr = map (fun t => map (fun s => tab n (the_cell t s)) scores) ious.
  Proof.
    unfold counts_arr. rewrite map_map. apply map_ext. intros t. rewrite map_map. apply map_ext. intros s. unfold np_cells. cbn [fst snd].
    unfold tab. rewrite combine_maps, map2_maps. apply map_ext. intros k. apply cell_eq.
  Qed.

  Variables (cv : Z -> Z -> nat -> Q) (sc : Z -> Z -> nat -> Z).
  Local Notation rep_map := (fun t => mean_ap (map (fun l => average_precision (cv t l)) (label_axis e))).
  Variable cs : list curve.
  Definition alike (t : Z) (c : curve) : Prop := forall l b, inside n l -> b <= 100 -> (fst (c l b) == cv t l b)%Q /\ snd (c l b) = sc t l b.
  Hypothesis Hcs : Forall2 alike ious cs.
  Definition ap_of (c : curve) (l : Z) : option Q := Some (fst (np_ap (map (c l) (seq 0 101)))).
  Definition curve_of (c : curve) (l : Z) : list (Q * Z) := snd (np_ap (map (c l) (seq 0 101))).
  Definition recall_of (t s l : Z) : Q := rep_recall eps e datums t s l.
  Definition ar_of (s l : Z) : option Q := np_mean (map (fun t => Some (recall_of t s l)) ious).

  Lemma ar_of_eq s l : ar_of s l = rep_ar eps e datums ious s l.
  Proof. unfold ar_of. rewrite <- (map_map (fun t => recall_of t s l) Some), np_mean_some. reflexivity. Qed.
  Lemma some_ar s l : exists q, rep_ar eps e datums ious s l = Some q.
  Proof. unfold rep_ar, average_recall, qmean. destruct ious as [|t ts]; [congruence|]. cbn. eauto. Qed.
  Lemma axis_some : label_axis e <> [].
  Proof. unfold label_axis. destruct labels; [congruence|discriminate]. Qed.
  Lemma somes {A} (f : A -> option Q) l : (forall x, exists q, f x = Some q) -> exists qs, map f l = map Some qs.
  Proof. intros H. induction l as [|x l [qs IH]]; [exists []; reflexivity|]. destruct (H x) as (q & E). exists (q :: qs). cbn. rewrite E, IH. reflexivity. Qed.
  Lemma same_refl x : same_number x x.
  Proof. destruct x; cbn; [reflexivity|exact I]. Qed.
  Lemma concat_some {A} (f : A -> option Q) l qs : map f l = map Some qs -> concat (map (fun x => match f x with Some q => [q] | None => [] end) l) = qs.
  Proof. revert qs. induction l as [|x l IH]; intros [|q qs] E; try discriminate; [reflexivity|]. cbn in *. injection E as E1 E2. rewrite E1. cbn. f_equal. apply IH, E2. Qed.
  Lemma mar_eq s : np_mean (tab n (ar_of s)) = rep_mar eps e datums ious s.
  Proof.
    destruct (somes (rep_ar eps e datums ious s) (label_axis e) (some_ar s)) as (qs & E). unfold rep_mar. rewrite (concat_some _ _ qs E).
    replace (tab n (ar_of s)) with (map Some qs); [apply np_mean_some|]. rewrite <- E. unfold label_axis, tab. rewrite map_map. apply map_ext. intros k. symmetry. apply ar_of_eq.
  Qed.
  Lemma some_mar s : exists q, rep_mar eps e datums ious s = Some q.
  Proof.
    destruct (somes (rep_ar eps e datums ious s) (label_axis e) (some_ar s)) as (qs & E). unfold rep_mar. rewrite (concat_some _ _ qs E).
    destruct qs as [|q qs]; [|cbn; eauto]. apply map_eq_nil in E. destruct (axis_some E).
  Qed.
  Lemma some_map t : exists q, rep_map t = Some q.
  Proof. unfold mean_ap, qmean. destruct (map _ (label_axis e)) eqn:E; [apply map_eq_nil in E; destruct (axis_some E)|eauto]. Qed.
  Lemma ap_value t c l : alike t c -> inside n l -> (fst (np_ap (map (c l) (seq 0 101))) == average_precision (cv t l))%Q.
  Proof. intros H Hin. apply (np_ap_value (c l) _ (sc t l)). intros b Hb. apply H; assumption. Qed.
  Lemma map_row t c : alike t c -> same_number (np_map_row (tab n (ap_of c))) (rep_map t).
  Proof.
    intros H. assert (E : np_map_row (tab n (ap_of c)) = np_mean (tab n (ap_of c))).
    { unfold np_map_row. destruct (tab n (ap_of c)) eqn:T; [|reflexivity]. exfalso. apply (f_equal (@length _)) in T. rewrite tab_length in T. destruct labels; [congruence|discriminate]. }
    rewrite E. unfold ap_of, tab. rewrite <- (map_map (fun k => fst (np_ap (map (c (Z.of_nat k)) (seq 0 101)))) Some), np_mean_some.
    unfold mean_ap, label_axis. rewrite map_map. apply qmean_Forall2.
    assert (G : forall k, In k (seq 0 n) -> inside n (Z.of_nat k)) by (intros k Hk'; apply in_seq in Hk'; unfold inside; lia). revert G.
    generalize (seq 0 n) as ks. intros ks. induction ks as [|k ks IH]; intros G; cbn [map]; constructor; [|apply IH; intros; apply G; right; assumption].
    apply ap_value; [exact H|]. apply G. left. reflexivity.
  Qed.
  Lemma zero_inside : inside n 0%Z.
  Proof. unfold inside. destruct labels; [congruence|]. cbn. lia. Qed.

  Lemma finish_ok : exists m, np_finish labels ious scores (tab n g) counts_arr (map (grid n) cs) = AOk m /\ metrics_with eps e datums cv sc ious scores m.
  Proof.
    unfold np_finish. cbv zeta. rewrite cells_eq. rewrite !map_map.
    assert (Er : map (fun x => map (map (fun c => Some (dl_recall c))) (map (fun s => tab n (the_cell x s)) scores)) ious
                 = map (fun t => map (fun s => tab n (fun l => Some (recall_of t s l))) scores) ious).
    { apply map_ext. intros t. rewrite map_map. apply map_ext. intros s. rewrite map_tab. reflexivity. }
    rewrite Er. clear Er.
    rewrite (amap_enum _ (fun s => tab n (ar_of s))).
    2:{ intros j s Hj. rewrite amap_map. rewrite (amap_ok _ (fun t => tab n (fun l => Some (recall_of t s l)))).
        - cbn [abind]. apply (columns_tab n (fun t l => Some (recall_of t s l))).
        - intros t _. apply np_get_nth. rewrite nth_error_map, Hj. reflexivity. }
    cbn [abind].
    assert (Ea : map (fun x => map (fun row => Some (fst (np_ap row))) (grid n x)) cs = map (fun c => tab n (ap_of c)) cs) by (apply map_ext; intros c; unfold grid; rewrite map_tab; reflexivity).
    assert (Ec : map (fun x => map (fun row => snd (np_ap row)) (grid n x)) cs = map (fun c => tab n (curve_of c)) cs) by (apply map_ext; intros c; unfold grid; rewrite map_tab; reflexivity).
    assert (Em : map (fun x => np_map_row (map (fun row => Some (fst (np_ap row))) (grid n x))) cs = map (fun c => np_map_row (tab n (ap_of c))) cs) by (apply map_ext; intros c; unfold grid; rewrite map_tab; reflexivity).
    rewrite Ea, Ec, Em. clear Ea Ec Em.
    rewrite (rows_items labels n Hk ap_of), (columns_tab n ap_of), (rows_items labels n Hk ar_of scores scores), (columns_tab n ar_of), (rows_items labels n Hk curve_of). cbn [abind].
    rewrite !(items_tab labels n Hk). cbn [abind].
    rewrite (amap_ok _ (fun kl => concat (map (fun s => map (fun t => (snd kl, s, t, the_cell t s (fst kl))) ious) scores))).
    2:{ intros kl Hin. rewrite (amap_enumerate _ (fun s => map (fun t => (snd kl, s, t, the_cell t s (fst kl))) ious)); [reflexivity|].
        intros j s Hj. apply amap_enumerate. intros i t Ht. cbn [fst snd].
        rewrite (np_get_nth _ i (map (fun s => tab n (the_cell t s)) scores)) by (rewrite nth_error_map, Ht; reflexivity). cbn [abind].
        rewrite (np_get_nth _ j (tab n (the_cell t s))) by (rewrite nth_error_map, Hj; reflexivity). cbn [abind].
        rewrite np_get_tab by (apply Hk, Hin). reflexivity. }
    cbn [abind]. eexists. split; [reflexivity|].
    assert (Hss : Forall2 (fun s s' : Z => s = s') scores scores) by (induction scores; constructor; auto).
    constructor; cbn [um_cells um_ap um_map um_ap_over um_map_over um_ar um_mar um_ar_over um_mar_over um_curve].
    - reflexivity.
    - apply (concat_listed labels n Hk alike ap_of _ ious cs Hcs). intros t c l Hc Hin. cbn. apply ap_value; assumption.
    - unfold per_threshold. revert Hcs. generalize cs as xs. clear Hi. induction ious as [|t ts IH]; intros xs F; inversion F as [|? c ? xs' Hc F' E1 E2]; subst; cbn [map combine]; constructor; [|apply IH, F'].
      cbn [fst snd]. split; [reflexivity|]. apply map_row, Hc.
    - unfold per_label. apply Forall2_map_l. intros kl Hin. cbn [fst snd]. split; [reflexivity|]. unfold ap_of.
      rewrite <- (map_map (fun c => fst (np_ap (map (c (fst kl)) (seq 0 101)))) Some), np_mean_some. apply qmean_Forall2.
      pose proof (Hk kl Hin) as Hkl. revert Hcs. generalize cs as xs. clear Hi. induction ious as [|t ts IH]; intros xs F; inversion F as [|? c ? xs' Hc F' E1 E2]; subst; cbn [map]; constructor; [|apply IH, F'].
      apply ap_value; assumption.
    - destruct (somes (rep_map) ious some_map) as (qs & E). exists qs. split; [exact E|].
      assert (F : Forall2 (fun q o => same_number o (Some q)) qs (map (fun c => np_map_row (tab n (ap_of c))) cs)).
      { revert Hcs E. generalize cs as xs. clear Hi. revert qs. induction ious as [|t ts IH]; intros [|q qs] xs F E; try discriminate; inversion F as [|? c ? xs' Hc F' E1 E2]; subst; cbn [map] in *; constructor.
        - injection E as E _. rewrite <- E. apply map_row, Hc.
        - apply IH; [exact F'|]. injection E as _ E. exact E. }
      assert (X : exists qs', map (fun c => np_map_row (tab n (ap_of c))) cs = map Some qs' /\ Forall2 Qeq qs' qs).
      { revert F. generalize (map (fun c => np_map_row (tab n (ap_of c))) cs) as os. generalize qs as q0. clear. intros q0 os F. induction F as [|q o q0 os Hq F IH]; [exists []; split; [reflexivity|constructor]|].
        destruct IH as (qs' & E & G). destruct o as [x|]; [|destruct Hq]. exists (x :: qs'). split; [cbn; rewrite E; reflexivity|constructor; assumption]. }
      destruct X as (qs' & -> & G). rewrite np_mean_some. apply qmean_Forall2, G.
    - apply (concat_listed labels n Hk (fun s s' => s = s') ar_of (fun s l x => x = rep_ar eps e datums ious s l) scores scores Hss). intros s s' l -> _. apply ar_of_eq.
    - unfold per_threshold. clear Hss. induction scores as [|s ss IH]; cbn [map combine]; constructor; [|exact IH]. cbn [fst snd]. split; [reflexivity|apply mar_eq].
    - unfold per_label. apply Forall2_map_l. intros kl Hin. cbn [fst snd]. split; [reflexivity|].
      destruct (somes (fun s => rep_ar eps e datums ious s (fst kl)) scores) as (qs & E); [intros s; apply some_ar|]. exists qs. split; [exact E|].
      erewrite map_ext; [rewrite E, np_mean_some; apply same_refl|]. intros s. apply ar_of_eq.
    - destruct (somes (rep_mar eps e datums ious) scores some_mar) as (qs & E). exists qs. split; [exact E|]. rewrite map_map.
      erewrite map_ext; [rewrite E, np_mean_some; apply same_refl|]. intros s. apply mar_eq.
    - apply (concat_listed labels n Hk alike curve_of _ ious cs Hcs). intros t c l Hc Hin. cbn beta.
      apply (np_ap_curve (c l) (cv t l) (sc t l)). intros b Hb. apply Hc; assumption.
  Qed.
End Finish.

(* ---------------------------------------------------------------- from arrays to curves *)
Lemma array_tab {A} n (a : list A) (f : Z -> A) : array_of n a (fun k x => x = f (Z.of_nat k)) -> a = tab n f.
Proof.
  intros (L & H). apply nth_ext_error. intros k. rewrite tab_nth. destruct (k <? n) eqn:E.
  - apply Nat.ltb_lt in E. destruct (nth_error a k) as [x|] eqn:Hx; [|apply nth_error_None in Hx; lia]. rewrite (H k x Hx). reflexivity.
  - apply Nat.ltb_ge in E. apply nth_error_None. lia.
Qed.
Lemma array_grid n (p : panel) (q : Z -> nat -> Q) (z : Z -> nat -> Z) :
  array_of n p (fun l row => array_of 101 row (fun b x => (fst x == q (Z.of_nat l) b)%Q /\ snd x = z (Z.of_nat l) b)) ->
  exists c, p = grid n c /\ forall l b, inside n l -> b <= 100 -> (fst (c l b) == q l b)%Q /\ snd (c l b) = z l b.
Proof.
  intros (L & H). set (c := fun (l : Z) (b : nat) => nth b (nth (Z.to_nat l) p []) (0%Q, 0%Z)). exists c.
  assert (R : forall k, k < n -> exists row, nth_error p k = Some row /\ nth k p [] = row).
  { intros k Hk. destruct (nth_error p k) as [row|] eqn:E; [|apply nth_error_None in E; lia]. exists row. split; [reflexivity|]. apply nth_error_nth. exact E. }
  split.
  - unfold grid. apply array_tab. split; [exact L|]. intros k row Hrow. destruct (H k row Hrow) as (Lr & _). unfold c. rewrite Nat2Z.id, (nth_error_nth p k [] Hrow).
    apply nth_ext_error. intros b. destruct (Nat.lt_ge_cases b 101) as [Hb|Hb].
    + rewrite bins_nth by lia. destruct (nth_error row b) as [x|] eqn:E; [|apply nth_error_None in E; lia]. f_equal. symmetry. apply nth_error_nth, E.
    + transitivity (@None (Q * Z)); [apply nth_error_None; lia|]. symmetry. apply nth_error_None. rewrite map_length, seq_length. lia.
  - intros l b Hl Hb. unfold inside in Hl. destruct (R (Z.to_nat l)) as (row & Hrow & E); [lia|]. unfold c. rewrite E. destruct (H _ row Hrow) as (Lr & Hr).
    destruct (nth_error row b) as [x|] eqn:Hx; [|apply nth_error_None in Hx; lia]. rewrite (nth_error_nth row b (0%Q, 0%Z) Hx).
    destruct (Hr b x Hx) as (A & B). rewrite Z2Nat.id in A, B by lia. split; assumption.
Qed.

Lemma metrics_from_gen eps bin cv sc order ious scores e datums :
  (forall kl, In kl (de_labels e) -> inside (length (de_labels e)) (fst kl)) -> de_labels e <> [] -> ious <> [] ->
  (exists G C P, np_precision_recall eps bin order ious scores e datums = AOk (G, C, P) /\
    array_of (length (de_labels e)) G (fun l x => x = rep_gts e datums (Z.of_nat l)) /\
    Forall2 (fun t row => Forall2 (fun s c =>
        array_of (length (de_labels e)) (fst c) (fun l x => x = rep_tp eps e datums t s (Z.of_nat l)) /\
        array_of (length (de_labels e)) (snd c) (fun l x => x = rep_fp eps e datums t s (Z.of_nat l))) scores row) ious C /\
    Forall2 (fun t p => array_of (length (de_labels e)) p (fun l row => array_of 101 row (fun b x =>
        (fst x == cv t (Z.of_nat l) b)%Q /\ snd x = sc t (Z.of_nat l) b))) ious P) ->
  exists m, np_metrics eps bin order ious scores e datums = AOk m /\ metrics_with eps e datums cv sc ious scores m.
Proof.
  intros Hk Hl Hi (G & C & P & E & HG & HC & HP). unfold np_metrics. rewrite E. cbn [abind fst snd].
  rewrite (array_tab _ _ _ HG).
  assert (EC : C = counts_arr eps e datums ious scores).
  { unfold counts_arr. clear - HC. induction HC as [|t row ts rows Hr F IH]; [reflexivity|]. cbn [map]. f_equal; [|exact IH].
    clear IH F. induction Hr as [|s c ss cs [A B] F' IH']; [reflexivity|]. cbn [map]. f_equal; [|exact IH']. destruct c as [a b]. cbn [fst snd] in *. rewrite (array_tab _ _ _ A), (array_tab _ _ _ B). reflexivity. }
  rewrite EC.
  assert (EP : exists cs, P = map (grid (length (de_labels e))) cs /\ Forall2 (alike e cv sc) ious cs).
  { clear - HP. induction HP as [|t p ts ps Hp F (cs & -> & IH)]; [exists []; split; [reflexivity|constructor]|].
    destruct (array_grid _ _ _ _ Hp) as (c & -> & Hc). exists (c :: cs). split; [reflexivity|]. constructor; [exact Hc|exact IH]. }
  destruct EP as (cs & -> & Hcs). apply finish_ok; assumption.
Qed.

Lemma metrics_from_arrays eps order ious scores e datums :
  (forall kl, In kl (de_labels e) -> inside (length (de_labels e)) (fst kl)) -> de_labels e <> [] -> ious <> [] ->
  (exists G C P, np_precision_recall eps exact_index order ious scores e datums = AOk (G, C, P) /\
    array_of (length (de_labels e)) G (fun l x => x = rep_gts e datums (Z.of_nat l)) /\
    Forall2 (fun t row => Forall2 (fun s c =>
        array_of (length (de_labels e)) (fst c) (fun l x => x = rep_tp eps e datums t s (Z.of_nat l)) /\
        array_of (length (de_labels e)) (snd c) (fun l x => x = rep_fp eps e datums t s (Z.of_nat l))) scores row) ious C /\
    Forall2 (fun t p => array_of (length (de_labels e)) p (fun l row => array_of 101 row (fun b x =>
        (fst x == rep_curve eps e datums t (Z.of_nat l) b)%Q /\ snd x = rep_bin_score eps e datums t (Z.of_nat l) b))) ious P) ->
  exists m, np_metrics eps exact_index order ious scores e datums = AOk m /\ metrics_ok eps e datums ious scores m.
Proof. apply metrics_from_gen. Qed.

(* ---------------------------------------------------------------- what success needs *)
Lemma columns_length n rows out : np_columns_mean n rows = AOk out -> length out = n.
Proof. intros H. apply amap_inv in H. apply Forall2_len in H. rewrite seq_length in H. auto. Qed.
Lemma metrics_need eps bin order ious scores e datums m : (forall kl, In kl (de_labels e) -> (0 <= fst kl)%Z) ->
  np_metrics eps bin order ious scores e datums = AOk m -> forall kl, In kl (de_labels e) -> inside (length (de_labels e)) (fst kl).
Proof.
  intros Hpos H kl Hin. unfold np_metrics in H. apply abind_inv in H. destruct H as (r & _ & H). unfold np_finish in H. cbv zeta in H.
  apply abind_inv in H. destruct H as (ars & Ha & H). apply abind_inv in H. destruct H as (x1 & _ & H). apply abind_inv in H. destruct H as (x2 & Hx & _).
  apply abind_inv in Hx. destruct Hx as (row & Hr & Hx). apply columns_length in Hr. destruct (amap_inv_In _ _ _ kl Hx Hin) as (y & Hy).
  apply abind_inv in Hy. destruct Hy as (v & Hv & _). apply np_get_inv in Hv; [|apply Hpos, Hin]. rewrite Hr in Hv. exact Hv.
Qed.
