(* Object detection: the confusion matrix at a score threshold does not depend on the
   predictions below it. *)
From Verif Require Import Prelude Counting CacheModel CacheSpec CacheProofs SortProofs FlowModel FlowProofs ClsModel ClsSpec ClsLabelProofs
  DetModel DetSpec DetMatchProofs DetRankProofs DetCountProofs DetLoaderProofs DetStoreProofs DetFlowModel DetLocalProofs DetMain DetOrderProofs
  DetConfProofs DetMatchingProofs DetConfOrder DetExModel DetExampleProofs DetReportModel DetEnd DetMore DetImage DetPickSpec DetPick DetAddSpec DetAddProofs.
From Coq Require Import String Lia QArith.
Local Open Scope nat_scope.
Local Open Scope list_scope.
Local Notation length := List.length (only parsing).
Local Notation concat := List.concat (only parsing).

(* ------------------------------------------------------------------ *)
(** * Greedy selection *)

Section Rel.
  Variable Rp : Z -> Z -> Prop.
  Hypothesis Rp_inj : forall p p' q q', Rp p p' -> Rp q q' -> (p = q <-> p' = q').
  Hypothesis Rp_neg : forall p p', Rp p p' -> (p <? 0)%Z = (p' <? 0)%Z.
  Lemma zmem_rel p p' up up' : Rp p p' -> Forall2 Rp up up' -> zmem p up = zmem p' up'.
  Proof.
    intros H F. unfold zmem. induction F as [|q q' up up' Hq F IH]; [reflexivity|]. cbn. rewrite IH. f_equal.
    apply eq_true_iff_eq. rewrite !Z.eqb_eq. apply Rp_inj; assumption.
  Qed.
  Lemma greedy_rel l l' : Forall2 (fun x y : Z * Z => fst x = fst y /\ Rp (snd x) (snd y)) l l' -> forall ug up up', Forall2 Rp up up' ->
    Forall2 (fun x y : Z * Z => fst x = fst y /\ Rp (snd x) (snd y)) (greedy ug up l) (greedy ug up' l').
  Proof.
    intros H. induction H as [|[g p] [g' p'] l l' [E1 E2] H IH]; intros ug up up' F; [constructor|]. cbn [fst snd] in E1, E2. subst g'.
    rewrite !greedy_cons, (Rp_neg p p' E2), (zmem_rel p p' up up' E2 F). destruct ((g <? 0)%Z || (p' <? 0)%Z || zmem g ug || zmem p' up'); [apply IH; exact F|].
    constructor; [cbn; auto|]. apply IH. constructor; assumption.
  Qed.
End Rel.

Definition validb (x : Z * Z) : bool := (0 <=? fst x)%Z && (0 <=? snd x)%Z.
Lemma greedy_valid l : forall ug up, greedy ug up (filter validb l) = greedy ug up l.
Proof.
  induction l as [|[g p] l IH]; intros ug up; [reflexivity|]. cbn [filter]. unfold validb at 1. cbn [fst snd]. rewrite greedy_cons.
  destruct (Z.leb_spec 0 g) as [A|A], (Z.leb_spec 0 p) as [B|B]; cbn [andb].
  - rewrite greedy_cons, !IH. reflexivity.
  - replace (p <? 0)%Z with true by (symmetry; apply Z.ltb_lt; exact B). rewrite orb_true_r. cbn. apply IH.
  - replace (g <? 0)%Z with true by (symmetry; apply Z.ltb_lt; exact A). cbn. apply IH.
  - replace (g <? 0)%Z with true by (symmetry; apply Z.ltb_lt; exact A). cbn. apply IH.
Qed.
Lemma greedy_front A B x : In x A -> validb x = true -> (In x (greedy [] [] (A ++ B)) <-> In x (greedy [] [] A)).
Proof.
  intros Hx Hv. rewrite greedy_app, in_app_iff. split; [|tauto]. intros [H|H]; [exact H|]. exfalso.
  apply greedy_In in H. destruct H as (_ & _ & N1 & N2). rewrite app_nil_r in N1, N2. rewrite <- in_rev in N1, N2.
  apply in_split in Hx. destruct Hx as (l1 & l2 & ->).
  assert (V : valid_pair x) by (unfold validb in Hv; unfold valid_pair; lia).
  destruct (greedy_blocked l1 x l2 V) as [Y|(y & Hy & C)].
  - apply N1. apply in_map. exact Y.
  - assert (Y : In y (greedy [] [] (l1 ++ x :: l2))) by (apply greedy_prefix; exact Hy).
    destruct C as [C|C]; [apply N1|apply N2]; rewrite C; apply in_map; exact Y.
Qed.

(* rows listed by descending score: those that reach [s] come first *)
Lemma high_first s l : StronglySorted (leP det_leb) l ->
  l = filter (fun r => (s <=? d_score r)%Z) l ++ filter (fun r => negb (s <=? d_score r)%Z) l.
Proof.
  intros H. induction H as [|a l H IH F]; [reflexivity|]. cbn [filter]. destruct (Z.leb_spec s (d_score a)) as [X|X]; cbn [negb].
  - cbn. f_equal. exact IH.
  - rewrite filter_none, filter_all; [reflexivity| |].
    + intros r Hr. rewrite Forall_forall in F. specialize (F r Hr). apply det_leb_spec in F. replace (s <=? d_score r)%Z with false by (symmetry; apply Z.leb_gt; lia). reflexivity.
    + intros r Hr. rewrite Forall_forall in F. specialize (F r Hr). apply det_leb_spec in F. apply Z.leb_gt. lia.
Qed.

Lemma filter_flat_map {A B} (P : B -> bool) (f : A -> list B) l : filter P (flat_map f l) = flat_map (fun x => filter P (f x)) l.
Proof. induction l as [|a l IH]; [reflexivity|]. cbn. rewrite filter_app, IH. reflexivity. Qed.
Lemma flat_map_flat_map {A B C} (f : A -> list B) (g : B -> list C) l : flat_map g (flat_map f l) = flat_map (fun x => flat_map g (f x)) l.
Proof. induction l as [|a l IH]; [reflexivity|]. cbn. rewrite flat_map_app, IH. reflexivity. Qed.
Lemma Forall2_flat_map {A B C D} (P : A -> B -> Prop) (Q : C -> D -> Prop) f g l l' : Forall2 P l l' ->
  (forall a b, In a l -> In b l' -> P a b -> Forall2 Q (f a) (g b)) -> Forall2 Q (flat_map f l) (flat_map g l').
Proof.
  intros H. induction H as [|a b l l' Hab H IH]; intros E; [constructor|]. cbn. apply Forall2_app.
  - apply E; [left; reflexivity|left; reflexivity|exact Hab].
  - apply IH. intros x y Hx Hy. apply E; right; assumption.
Qed.
Lemma Forall2_refl' {A} (P : A -> A -> Prop) l : (forall x, In x l -> P x x) -> Forall2 P l l.
Proof. induction l as [|a l IH]; intros H; constructor; [apply H; left; reflexivity|apply IH; intros x Hx; apply H; right; exact Hx]. Qed.
Lemma flat_map_filter {A B} (f : A -> list B) (k : A -> bool) l : (forall x, In x l -> k x = false -> f x = []) -> flat_map f (filter k l) = flat_map f l.
Proof.
  induction l as [|a l IH]; intros H; [reflexivity|]. cbn. assert (X := IH (fun x Hx => H x (or_intror Hx))).
  destruct (k a) eqn:E; cbn; rewrite X; [reflexivity|]. rewrite (H a (or_introl eq_refl) E). reflexivity.
Qed.
Lemma flat_map_nil {A B} (f : A -> list B) l : (forall x, In x l -> f x = []) -> flat_map f l = [].
Proof. induction l as [|a l IH]; intros H; [reflexivity|]. cbn. rewrite (H a (or_introl eq_refl)), IH by (intros x Hx; apply H; right; exact Hx). reflexivity. Qed.
Lemma map_eq_Forall2 {A B C} (f : A -> C) (g : B -> C) l : forall l', map f l = map g l' -> Forall2 (fun a b => f a = g b) l l'.
Proof. induction l as [|a l IH]; intros [|b l'] E; try discriminate; constructor; cbn in E; injection E as E1 E2; auto. Qed.
Lemma filter_map_swap {A B} (f : A -> B) (P : B -> bool) l : filter P (map f l) = map f (filter (fun x => P (f x)) l).
Proof. induction l as [|a l IH]; [reflexivity|]. cbn. destruct (P (f a)); cbn; rewrite IH; reflexivity. Qed.
Lemma Forall2_nth {A B} (P : A -> B -> Prop) l l' : Forall2 P l l' -> forall j a, nth_error l j = Some a -> exists b, nth_error l' j = Some b /\ P a b.
Proof. intros H. induction H as [|x y l l' Hxy H IH]; intros [|j] a E; try discriminate; cbn in *; [injection E as <-; eauto|apply IH; exact E]. Qed.
Lemma Forall2_nth_r {A B} (P : A -> B -> Prop) l l' : Forall2 P l l' -> forall j b, nth_error l' j = Some b -> exists a, nth_error l j = Some a /\ P a b.
Proof. intros H. induction H as [|x y l l' Hxy H IH]; intros [|j] a E; try discriminate; cbn in *; [injection E as <-; eauto|apply IH; exact E]. Qed.
Lemma Forall2_In_l {A B} (P : A -> B -> Prop) l l' a : Forall2 P l l' -> In a l -> exists b, In b l' /\ P a b.
Proof. intros H I. apply In_nth_error in I. destruct I as (j & E). destruct (Forall2_nth P l l' H j a E) as (b & E' & Q). exists b. split; [apply (nth_error_In _ _ E')|exact Q]. Qed.
Lemma Forall2_In_r {A B} (P : A -> B -> Prop) l l' b : Forall2 P l l' -> In b l' -> exists a, In a l /\ P a b.
Proof. intros H I. apply In_nth_error in I. destruct I as (j & E). destruct (Forall2_nth_r P l l' H j b E) as (a & E' & Q). exists a. split; [apply (nth_error_In _ _ E')|exact Q]. Qed.

Lemma Forall2_impl' {A B} (P Q : A -> B -> Prop) l l' : (forall a b, P a b -> Q a b) -> Forall2 P l l' -> Forall2 Q l l'.
Proof. intros E H. induction H; constructor; auto. Qed.

(* ------------------------------------------------------------------ *)
(** * One image with and without its low predictions *)

Section Image.
  Variables (eps s : Z) (d d' : detection).
  Hypothesis Hlow : without_low s d d'.
  Let n := length (t_gts d').
  Definition keeps (pa : nat * annotation) : bool := existsb (fun sc => (s <=? sc)%Z) (a_scores (snd pa)).
  Local Notation K := (filter keeps (numbered (t_pds d'))).

  Lemma same_gts : t_gts d = t_gts d'.
  Proof. apply Hlow. Qed.

  Definition pd_rel (pa pa' : nat * annotation) : Prop := snd pa = snd pa' /\ row_of d (fst pa) = row_of d' (fst pa').
  Lemma kept_pds_rel : Forall2 pd_rel (numbered (t_pds d)) K.
  Proof.
    destruct Hlow as [Eg Eo]. unfold overlaps in Eo. rewrite filter_map_swap in Eo. apply map_eq_Forall2 in Eo.
    apply (Forall2_impl' _ _ _ _ (fun a b E => conj (f_equal fst E) (f_equal snd E)) Eo).
  Qed.
  Lemma rel_iou pa pa' g : pd_rel pa pa' -> g < n -> t_iou d (fst pa) g = t_iou d' (fst pa') g.
  Proof.
    intros [_ E] Hg. unfold row_of in E. rewrite same_gts in E. fold n in E. apply (f_equal (fun l => nth g l 0%Z)) in E. rewrite !nth_row in E by exact Hg. exact E.
  Qed.

  Definition Rp (p p' : Z) : Prop := exists j pa', p = Z.of_nat j /\ nth_error K j = Some pa' /\ p' = Z.of_nat (fst pa').
  Lemma K_NoDup : NoDup (map fst K).
  Proof.
    assert (S : StronglySorted (fun a b : nat * annotation => fst a < fst b) K) by (apply StronglySorted_filter; apply enum_sorted).
    induction S as [|a l S IH F]; [constructor|]. cbn. constructor; [|exact IH]. intros X. apply in_map_iff in X. destruct X as (b & E & Hb).
    rewrite Forall_forall in F. specialize (F b Hb). lia.
  Qed.
  Lemma Rp_inj p p' q q' : Rp p p' -> Rp q q' -> (p = q <-> p' = q').
  Proof.
    intros (j & a & -> & Hj & ->) (k & b & -> & Hk & ->). split; intros E.
    - assert (j = k) by lia. subst k. assert (a = b) by congruence. subst. reflexivity.
    - f_equal. assert (N := K_NoDup). rewrite NoDup_nth_error in N. apply N; [rewrite map_length; apply nth_error_Some; congruence|].
      rewrite !nth_error_map, Hj, Hk. cbn. f_equal. lia.
  Qed.
  Lemma Rp_neg p p' : Rp p p' -> (p <? 0)%Z = (p' <? 0)%Z.
  Proof.
    intros (j & a & -> & _ & ->). replace (Z.of_nat j <? 0)%Z with false by (symmetry; apply Z.ltb_ge; lia). symmetry. apply Z.ltb_ge. lia.
  Qed.

  Definition hi (r : drow) : bool := (s <=? d_score r)%Z && validb (pair_ids r).
  Definition Rr (r r' : drow) : Prop := d_score r = d_score r' /\ d_iou r = d_iou r' /\ d_gt r = d_gt r' /\ Rp (d_pd r) (d_pd r').
  Definition rows_of (x : detection) : list drow := flat_map (item_row x 0 0 0 []) (items eps x).

  Lemma pd_rows_low x (p : nat) (a : annotation) : filter hi (flat_map (item_row x 0 0 0 []) (pd_items p a)) = [].
  Proof.
    unfold pd_items. rewrite flat_map_concat_map, map_map, <- flat_map_concat_map, filter_flat_map. apply flat_map_nil. intros ls _. cbn.
    unfold hi, validb, pair_ids. cbn. rewrite andb_false_r. reflexivity.
  Qed.
  Definition pair_row (x : detection) (g : nat) (ga : annotation) (gl : string) (p : nat) (pa : annotation) (ls : string * Z) : drow :=
    MkD (t_uid x) (Z.of_nat 0) (Some (a_uid ga)) (Z.of_nat (0 + g)) (Some gl) (idx [] gl)
        (Some (a_uid pa)) (Z.of_nat (0 + p)) (Some (fst ls)) (idx [] (fst ls)) (snd ls) (t_iou x p g) 0.
  Lemma pair_rows x g ga p pa : flat_map (item_row x 0 0 0 []) (pair_items g ga p pa)
    = flat_map (fun gl => map (pair_row x g ga gl p pa) (combine (a_labels pa) (a_scores pa))) (a_labels ga).
  Proof.
    unfold pair_items. rewrite flat_map_flat_map. apply flat_map_ext. intros gl. induction (combine (a_labels pa) (a_scores pa)) as [|ls l IH]; [reflexivity|].
    cbn [map flat_map]. rewrite IH. reflexivity.
  Qed.
  Definition hi_pd (x : detection) (ig ip : nat * annotation) : list drow :=
    filter hi (if (eps <=? t_iou x (fst ip) (fst ig))%Z then flat_map (item_row x 0 0 0 []) (pair_items (fst ig) (snd ig) (fst ip) (snd ip)) else []).
  Lemma hi_gt x ig : filter hi (flat_map (item_row x 0 0 0 []) (gt_items eps x ig)) =
    match a_labels (snd ig) with [] => [] | _ :: _ => flat_map (hi_pd x ig) (numbered (t_pds x)) end.
  Proof.
    unfold gt_items. destruct (a_labels (snd ig)) as [|gl rest]; [reflexivity|]. cbn [flat_map]. rewrite filter_app.
    assert (E : filter hi (item_row x 0 0 0 [] (if gt_alone eps x (fst ig) then IGt (fst ig) (snd ig) gl else ILabel gl)) = []).
    { destruct (gt_alone eps x (fst ig)); [|reflexivity]. cbn. unfold hi, validb, pair_ids. cbn. rewrite !andb_false_r. reflexivity. }
    rewrite E. cbn [app]. unfold gt_pd_items. rewrite flat_map_flat_map, filter_flat_map. apply flat_map_ext. intros ip.
    rewrite flat_map_app, filter_app. unfold hi_pd.
    destruct (pd_alone eps x (fst ip)); [rewrite pd_rows_low|]; cbn [flat_map filter app]; destruct (eps <=? t_iou x (fst ip) (fst ig))%Z; reflexivity.
  Qed.
  Lemma hi_rows x : filter hi (rows_of x) = flat_map (fun ig => match a_labels (snd ig) with [] => [] | _ :: _ => flat_map (hi_pd x ig) (numbered (t_pds x)) end) (numbered (t_gts x)).
  Proof.
    unfold rows_of, items. destruct (t_gts x) as [|g0 gs] eqn:E.
    - cbn [numbered combine seq length flat_map]. rewrite flat_map_flat_map, filter_flat_map. apply flat_map_nil. intros ip _. apply pd_rows_low.
    - rewrite <- E. rewrite flat_map_flat_map, filter_flat_map. apply flat_map_ext. intros ig. apply hi_gt.
  Qed.
  Lemma hi_pd_low ig ip : keeps ip = false -> hi_pd d' ig ip = [].
  Proof.
    intros H. unfold hi_pd. destruct (eps <=? t_iou d' (fst ip) (fst ig))%Z; [|reflexivity]. rewrite pair_rows, filter_flat_map. apply flat_map_nil. intros gl _.
    apply filter_none. intros r Hr. apply in_map_iff in Hr. destruct Hr as (ls & <- & Hl). unfold hi, pair_row. cbn [d_score].
    replace (s <=? snd ls)%Z with false; [reflexivity|]. symmetry. destruct (s <=? snd ls)%Z eqn:E; [|reflexivity].
    destruct ls as [l sc]. apply in_combine_r in Hl. assert (X : keeps ip = true) by (unfold keeps; apply existsb_exists; eauto). congruence.
  Qed.
  Lemma Forall2_filter' {A B} (P : A -> B -> Prop) f g l l' : Forall2 P l l' -> (forall a b, P a b -> f a = g b) -> Forall2 P (filter f l) (filter g l').
  Proof. intros H E. induction H as [|a b l l' Hab H IH]; [constructor|]. cbn. rewrite (E a b Hab). destruct (g b); [constructor|]; assumption. Qed.

  Lemma numbered_Forall2 {A B} (P : nat * A -> B -> Prop) (l : list A) l' : Forall2 P (numbered l) l' ->
    Forall2 (fun a b => P a b /\ nth_error l (fst a) = Some (snd a) /\ nth_error l' (fst a) = Some b) (numbered l) l'.
  Proof.
    intros H. unfold numbered in *. assert (G : forall k m (l0 : list A), Forall2 P (combine (seq k (length l0)) l0) m ->
      Forall2 (fun a b => P a b /\ k <= fst a /\ nth_error l0 (fst a - k) = Some (snd a) /\ nth_error m (fst a - k) = Some b) (combine (seq k (length l0)) l0) m).
    { intros k m l0. revert k m. induction l0 as [|x l0 IH]; intros k m F; cbn in *; inversion F as [|? y ? m' Q F']; subst; constructor.
      - cbn. rewrite Nat.sub_diag. auto.
      - specialize (IH (S k) m' F'). revert IH. apply Forall2_impl'. intros a b (A1 & A2 & A3 & A4).
        split; [exact A1|]. split; [lia|]. replace (fst a - k) with (S (fst a - S k)) by lia. cbn. auto. }
    specialize (G 0 l' l H). revert G. apply Forall2_impl'. intros a b (A1 & A2 & A3 & A4).
    rewrite Nat.sub_0_r in A3, A4. auto.
  Qed.
  Lemma kept_pds_rel' : Forall2 (fun pa pa' => pd_rel pa pa' /\ Rp (Z.of_nat (fst pa)) (Z.of_nat (fst pa'))) (numbered (t_pds d)) K.
  Proof.
    assert (H := numbered_Forall2 _ _ _ kept_pds_rel). revert H. apply Forall2_impl'. intros a b (A1 & A2 & A3). split; [exact A1|]. exists (fst a), b. auto.
  Qed.

  Lemma hi_rel : Forall2 Rr (filter hi (rows_of d)) (filter hi (rows_of d')).
  Proof.
    rewrite !hi_rows, same_gts. apply (Forall2_flat_map (fun a b => a = b)).
    - apply Forall2_refl'. reflexivity.
    - intros ig ig' Hig _ <-. destruct (a_labels (snd ig)) as [|gl0 rest] eqn:El; [constructor|].
      rewrite <- (flat_map_filter (hi_pd d' ig) keeps (numbered (t_pds d'))) by (intros x _; apply hi_pd_low).
      apply (Forall2_flat_map _ _ _ _ _ _ kept_pds_rel'). intros a b _ _ [Hr HR]. unfold hi_pd.
      assert (Hg : fst ig < n) by (apply (numbered_lt (t_gts d')); exact Hig).
      rewrite (rel_iou a b (fst ig) Hr Hg). apply Forall2_filter'.
      + destruct (eps <=? t_iou d' (fst b) (fst ig))%Z; [|constructor]. rewrite !pair_rows.
        apply (Forall2_flat_map (fun a b => a = b)); [apply Forall2_refl'; reflexivity|]. intros gl gl' _ _ <-. destruct Hr as [Ea Er]. rewrite Ea.
        induction (combine (a_labels (snd b)) (a_scores (snd b))) as [|ls l IH]; constructor; [|exact IH].
        split; [reflexivity|]. split; [|split; [reflexivity|exact HR]]. cbn. apply (rel_iou a b (fst ig)); [split; assumption|exact Hg].
      + intros r r' (E1 & _ & E3 & E4). unfold hi, validb, pair_ids. cbn [fst snd]. rewrite E1, E3. f_equal. f_equal.
        assert (N := Rp_neg _ _ E4). rewrite !Z.leb_antisym. rewrite N. reflexivity.
  Qed.

  (* the selection restricted to rows that reach [s] *)
  Local Notation sel_of x := (greedy [] [] (map pair_ids (dsort (filter hi (rows_of x))))).
  Lemma sel_rel : Forall2 (fun x y : Z * Z => fst x = fst y /\ Rp (snd x) (snd y)) (sel_of d) (sel_of d').
  Proof.
    apply (greedy_rel Rp Rp_inj Rp_neg); [|constructor].
    assert (F : Forall2 Rr (dsort (filter hi (rows_of d))) (dsort (filter hi (rows_of d')))).
    { apply (isort_Forall2 Rr); [|exact hi_rel]. intros a b a' b' (A1 & A2 & _) (B1 & B2 & _). unfold row_leb, det_sorting. cbn. rewrite A1, A2, B1, B2. reflexivity. }
    induction F as [|a b u w (_ & _ & E & R0) F IH]; constructor; [split; assumption|exact IH].
  Qed.

  Lemma matched_high x p pa g ga l sc : nth_error (t_pds x) p = Some pa -> nth_error (t_gts x) g = Some ga -> a_labels ga <> [] ->
    In (l, sc) (combine (a_labels pa) (a_scores pa)) -> (s <= sc)%Z -> (eps <= t_iou x p g)%Z ->
    image_matching eps x p g = true <-> In (Z.of_nat g, Z.of_nat p) (sel_of x).
  Proof.
    intros Hp Hg Hl Hs Hsc Hi. unfold image_matching. rewrite !andb_true_iff, zzmem_In.
    assert (L1 : (p <? length (t_pds x)) = true) by (apply Nat.ltb_lt, nth_error_Some; congruence).
    assert (L2 : (g <? length (t_gts x)) = true) by (apply Nat.ltb_lt, nth_error_Some; congruence). rewrite L1, L2.
    assert (S : StronglySorted (leP det_leb) (image_rows eps x)) by (apply isort_sorted; [apply det_leb_total|apply det_leb_trans]).
    rewrite (high_first s _ S), map_app.
    destruct (a_labels ga) as [|gl rest] eqn:El; [congruence|].
    set (r := pair_row x g ga gl p pa (l, sc)).
    assert (Hr : In r (filter hi (rows_of x))).
    { rewrite hi_rows. apply in_flat_map. exists (g, ga). split; [apply numbered_In; exact Hg|]. cbn [snd]. rewrite El. apply in_flat_map. exists (p, pa).
      split; [apply numbered_In; exact Hp|]. unfold hi_pd. cbn [fst snd]. replace (eps <=? t_iou x p g)%Z with true by (symmetry; apply Z.leb_le; exact Hi).
      apply filter_In. split.
      - rewrite pair_rows. apply in_flat_map. exists gl. split; [rewrite El; left; reflexivity|]. apply in_map_iff. exists (l, sc). auto.
      - unfold hi, validb, pair_ids, r, pair_row. cbn [d_score d_gt d_pd fst snd]. lia. }
    assert (E : filter validb (map pair_ids (filter (fun r => (s <=? d_score r)%Z) (image_rows eps x))) = map pair_ids (dsort (filter hi (rows_of x)))).
    { rewrite filter_map_swap, filter_filter. f_equal. rewrite <- table_sort_filter. unfold image_rows. fold (rows_of x). apply filter_ext. intros y. unfold hi. reflexivity. }
    assert (I : In (Z.of_nat g, Z.of_nat p) (map pair_ids (dsort (filter hi (rows_of x))))).
    { apply in_map_iff. exists r. split; [reflexivity|]. apply in_sorted_table. exact Hr. }
    rewrite greedy_front.
    - rewrite <- greedy_valid, E. tauto.
    - rewrite <- E in I. apply filter_In in I. tauto.
    - unfold validb. cbn [fst snd]. lia.
  Qed.

  Lemma matched_same pa pa' g ga sc l : pd_rel pa pa' -> Rp (Z.of_nat (fst pa)) (Z.of_nat (fst pa')) -> nth_error (t_pds d) (fst pa) = Some (snd pa) -> nth_error (t_pds d') (fst pa') = Some (snd pa') ->
    nth_error (t_gts d') g = Some ga -> a_labels ga <> [] -> In (l, sc) (combine (a_labels (snd pa')) (a_scores (snd pa'))) -> (s <= sc)%Z -> (eps <= t_iou d' (fst pa') g)%Z ->
    image_matching eps d (fst pa) g = image_matching eps d' (fst pa') g.
  Proof.
    intros Hr HR Hp Hp' Hg Hl Hs Hsc Hi. assert (Hg' : g < n) by (apply nth_error_Some; congruence).
    apply eq_true_iff_eq.
    assert (Hg2 : nth_error (t_gts d) g = Some ga) by (rewrite same_gts; exact Hg).
    assert (Hs2 : In (l, sc) (combine (a_labels (snd pa)) (a_scores (snd pa)))) by (destruct Hr as [-> _]; exact Hs).
    assert (Hi2 : (eps <= t_iou d (fst pa) g)%Z) by (rewrite (rel_iou _ _ g Hr Hg'); exact Hi).
    rewrite (matched_high d (fst pa) (snd pa) g ga l sc Hp Hg2 Hl Hs2 Hsc Hi2).
    rewrite (matched_high d' (fst pa') (snd pa') g ga l sc Hp') by auto. split; intros H.
    - destruct (Forall2_In_l _ _ _ _ sel_rel H) as ((g1, p1) & H1 & E1 & E2). cbn in E1, E2. subst g1.
      assert (X : Z.of_nat (fst pa') = p1) by (apply (proj1 (Rp_inj _ _ _ _ HR E2)); reflexivity). rewrite X. exact H1.
    - destruct (Forall2_In_r _ _ _ _ sel_rel H) as ((g1, p1) & H1 & E1 & E2). cbn in E1, E2. subst g1.
      assert (X : Z.of_nat (fst pa) = p1) by (apply (proj2 (Rp_inj _ _ _ _ HR E2)); reflexivity). rewrite X. exact H1.
  Qed.

  (* ---------------------------------------------------------------- counts *)
  Hypothesis Hok : det_ok d' = true.
  Variable t : Z.

  Lemma gt_nonempty g ga : nth_error (t_gts d') g = Some ga -> a_labels ga <> [].
  Proof.
    intros H E. unfold det_ok in Hok. rewrite !andb_true_iff, !forallb_forall in Hok. destruct Hok as ((H1 & _) & _).
    specialize (H1 ga (nth_error_In _ _ H)). unfold ann_ok in H1. rewrite E in H1. destruct (a_scores ga); cbn in H1; discriminate H1.
  Qed.
  Lemma pd_lengths p pa : nth_error (t_pds d') p = Some pa -> length (a_scores pa) = length (a_labels pa).
  Proof.
    intros H. unfold det_ok in Hok. rewrite !andb_true_iff, !forallb_forall in Hok. destruct Hok as (_ & H1).
    specialize (H1 pa (nth_error_In _ _ H)). apply Nat.eqb_eq. exact H1.
  Qed.
  Lemma pd_score_label p pa sc : nth_error (t_pds d') p = Some pa -> In sc (a_scores pa) -> exists l, In (l, sc) (combine (a_labels pa) (a_scores pa)).
  Proof.
    intros H I. apply In_nth_error in I. destruct I as (k & E). destruct (nth_error (a_labels pa) k) as [l|] eqn:El.
    - exists l. apply combine_In_nth. eauto.
    - apply nth_error_None in El. assert (k < length (a_scores pa)) by (apply nth_error_Some; congruence). rewrite (pd_lengths p pa H) in *. lia.
  Qed.

  Definition full_rel (pa pa' : nat * annotation) : Prop :=
    pd_rel pa pa' /\ Rp (Z.of_nat (fst pa)) (Z.of_nat (fst pa')) /\ nth_error (t_pds d) (fst pa) = Some (snd pa) /\ nth_error (t_pds d') (fst pa') = Some (snd pa').
  Lemma full_rel_pds : Forall2 full_rel (numbered (t_pds d)) K.
  Proof.
    assert (H := kept_pds_rel'). assert (I1 : forall a, In a (numbered (t_pds d)) -> nth_error (t_pds d) (fst a) = Some (snd a)) by (intros [p a] I; apply numbered_In in I; exact I).
    assert (I2 : forall a, In a K -> nth_error (t_pds d') (fst a) = Some (snd a)) by (intros [p a] I; apply filter_In in I; destruct I as [I _]; apply numbered_In in I; exact I).
    revert H I1 I2. generalize (numbered (t_pds d)) as l. set (k := K). generalize k as l'. intros l' l H I1 I2.
    induction H as [|a b u w (A1 & A2) H IH]; constructor.
    - split; [exact A1|]. split; [exact A2|]. split; [apply I1; left; reflexivity|apply I2; left; reflexivity].
    - apply IH; intros x Hx; [apply I1|apply I2]; right; exact Hx.
  Qed.
  Lemma reach_same pa pa' g sc : full_rel pa pa' -> g < n -> reaches eps t s d (fst pa) g sc = reaches eps t s d' (fst pa') g sc.
  Proof. intros (H & _) Hg. unfold reaches. rewrite (rel_iou _ _ g H Hg). reflexivity. Qed.
  Lemma hit_same pa pa' g ga sc : full_rel pa pa' -> nth_error (t_gts d') g = Some ga -> In sc (a_scores (snd pa')) ->
    image_matching eps d (fst pa) g && reaches eps t s d (fst pa) g sc = image_matching eps d' (fst pa') g && reaches eps t s d' (fst pa') g sc.
  Proof.
    intros H Hg Hs. assert (Hg' : g < n) by (apply nth_error_Some; congruence). rewrite (reach_same _ _ g sc H Hg').
    destruct (reaches eps t s d' (fst pa') g sc) eqn:E; [|rewrite !andb_false_r; reflexivity]. rewrite !andb_true_r.
    unfold reaches in E. rewrite !andb_true_iff in E. destruct E as [[[E1 E2] E3] E4]. destruct H as (A1 & A2 & A3 & A4).
    destruct (pd_score_label _ _ sc A4 Hs) as (l & Hl). apply (matched_same pa pa' g ga sc l A1 A2 A3 A4 Hg (gt_nonempty g ga Hg) Hl); lia.
  Qed.
  Lemma low_reach pa g sc : keeps pa = false -> In sc (a_scores (snd pa)) -> reaches eps t s d' (fst pa) g sc = false.
  Proof.
    intros H Hs. unfold reaches. destruct (s <=? sc)%Z eqn:E; [|rewrite andb_false_r; reflexivity].
    assert (X : keeps pa = true) by (unfold keeps; apply existsb_exists; eauto). congruence.
  Qed.

  Lemma low_pairs gl pl : count_pairs gl pl d (fun g p sc => image_matching eps d p g && reaches eps t s d p g sc)
    = count_pairs gl pl d' (fun g p sc => image_matching eps d' p g && reaches eps t s d' p g sc).
  Proof.
    unfold count_pairs. rewrite same_gts. apply list_sum_nat_ext. intros [g ga] Hg. apply numbered_In in Hg. cbn [fst snd]. destruct (has_label gl ga); [|reflexivity].
    rewrite <- (sum_filter _ keeps (numbered (t_pds d'))).
    - apply (sum_Forall2 _ _ _ _ _ full_rel_pds). intros pa pa' H. assert (E : snd pa = snd pa') by apply H. rewrite E.
      apply countb_ext_in. intros [l sc] Hl. cbn [fst snd]. f_equal. apply (hit_same pa pa' g ga sc H Hg). apply in_combine_r in Hl. exact Hl.
    - intros pa _ Hk. unfold countb. rewrite filter_none; [reflexivity|]. intros [l sc] Hl. apply in_combine_r in Hl. cbn [fst snd].
      rewrite (low_reach pa g sc Hk Hl), !andb_false_r. reflexivity.
  Qed.
  Lemma low_gt_covered g ga : nth_error (t_gts d') g = Some ga ->
    gt_covered eps t s d (image_matching eps d) g = gt_covered eps t s d' (image_matching eps d') g.
  Proof.
    intros Hg. unfold gt_covered.
    assert (E : forall (x : detection) (pa : nat * annotation), (image_matching eps x (fst pa) g && existsb (fun sc => reaches eps t s x (fst pa) g sc) (a_scores (snd pa)))
      = existsb (fun sc => image_matching eps x (fst pa) g && reaches eps t s x (fst pa) g sc) (a_scores (snd pa))).
    { intros x pa. induction (a_scores (snd pa)) as [|sc l IH]; [apply andb_false_r|]. cbn. rewrite <- IH. apply andb_orb_distrib_r. }
    rewrite (existsb_ext_in _ _ _ (fun pa _ => E d pa)), (existsb_ext_in _ _ _ (fun pa _ => E d' pa)).
    rewrite <- (existsb_filter _ keeps (numbered (t_pds d'))).
    - assert (F := full_rel_pds). revert F. generalize (numbered (t_pds d)) as l. set (k := K). generalize k as l'. intros l' l F.
      induction F as [|pa pa' u w H F IH]; [reflexivity|]. cbn [existsb]. rewrite IH. f_equal. assert (Es : snd pa = snd pa') by apply H. rewrite Es.
      apply existsb_ext_in. intros sc Hs. apply (hit_same pa pa' g ga sc H Hg Hs).
    - intros pa _ H. apply existsb_exists in H. destruct H as (sc & Hs & H). apply andb_true_iff in H. destruct H as [_ H].
      destruct (keeps pa) eqn:Ek; [reflexivity|]. rewrite (low_reach pa g sc Ek Hs) in H. discriminate.
  Qed.
  Lemma low_pd_covered pa pa' : full_rel pa pa' ->
    pd_covered eps t s d (image_matching eps d) (fst pa) = pd_covered eps t s d' (image_matching eps d') (fst pa').
  Proof.
    intros H. unfold pd_covered. assert (H' := H). destruct H' as (A1 & A2 & A3 & A4). rewrite A3, A4, same_gts. assert (Es : snd pa = snd pa') by apply A1. rewrite Es.
    apply existsb_ext_in. intros g Hg. apply in_seq in Hg. destruct (nth_error (t_gts d') g) as [ga|] eqn:Eg; [|apply nth_error_None in Eg; lia].
    assert (E : forall (m : bool) (f : Z -> bool) l, m && existsb f l = existsb (fun sc => m && f sc) l).
    { intros m f l. induction l as [|sc l IH]; [apply andb_false_r|]. cbn. rewrite <- IH. apply andb_orb_distrib_r. }
    rewrite !E. apply existsb_ext_in. intros sc Hs. apply (hit_same pa pa' g ga sc H Eg Hs).
  Qed.
  Lemma low_count_gts gl : count_gts gl d (fun g => negb (gt_covered eps t s d (image_matching eps d) g))
    = count_gts gl d' (fun g => negb (gt_covered eps t s d' (image_matching eps d') g)).
  Proof.
    unfold count_gts. rewrite same_gts. apply countb_ext_in. intros [g ga] Hg. apply numbered_In in Hg. cbn [fst snd]. rewrite (low_gt_covered g ga Hg). reflexivity.
  Qed.
  Lemma low_count_pds pl : count_pds pl d (fun p sc => (eps <? sc)%Z && (s <=? sc)%Z && negb (pd_covered eps t s d (image_matching eps d) p))
    = count_pds pl d' (fun p sc => (eps <? sc)%Z && (s <=? sc)%Z && negb (pd_covered eps t s d' (image_matching eps d') p)).
  Proof.
    unfold count_pds. rewrite <- (sum_filter _ keeps (numbered (t_pds d'))).
    - apply (sum_Forall2 _ _ _ _ _ full_rel_pds). intros pa pa' H. rewrite (low_pd_covered pa pa' H). assert (E : snd pa = snd pa') by apply H. rewrite E. reflexivity.
    - intros pa _ Hk. unfold countb. rewrite filter_none; [reflexivity|]. intros [l sc] Hl. apply in_combine_r in Hl. cbn [fst snd].
      destruct (s <=? sc)%Z eqn:E; [|rewrite andb_false_r, andb_false_l, andb_false_r; reflexivity].
      assert (X : keeps pa = true) by (unfold keeps; apply existsb_exists; eauto). congruence.
  Qed.
End Image.

Section Matrix.
  Variables (eps unit : Z) (ds ds' : list detection) (sel sel' : detection -> bool) (datums datums' : drow -> bool) (e e' : deval).
  Hypothesis Hin : det_input unit ds.
  Hypothesis Hin' : det_input unit ds'.
  Hypothesis Hsel : det_selects ds datums sel.
  Hypothesis Hsel' : det_selects ds' datums' sel'.
  Hypothesis He : det_evaluator eps unit ds e.
  Hypothesis He' : det_evaluator eps unit ds' e'.
  Hypothesis Hfew : few_det_labels ds.
  Hypothesis Hfew' : few_det_labels ds'.
  Hypothesis Hann : few_annotations ds.
  Hypothesis Hann' : few_annotations ds'.
  Hypothesis Hdis : Forall distinct_pd_labels ds.
  Hypothesis Hdis' : Forall distinct_pd_labels ds'.

  Lemma low_matrix v vi vi' w wi wi' t s : label_no e v vi -> label_no e' v vi' -> label_no e w wi -> label_no e' w wi' ->
    Forall2 (fun d d' => without_low s d d' /\ sel d = sel' d') ds ds' ->
    dm (rep_matrix eps e datums t s) (Z.of_nat vi) (Z.of_nat wi) = dm (rep_matrix eps e' datums' t s) (Z.of_nat vi') (Z.of_nat wi') /\
    dm_gt (rep_matrix eps e datums t s) (Z.of_nat vi) = dm_gt (rep_matrix eps e' datums' t s) (Z.of_nat vi') /\
    dm_pd (rep_matrix eps e datums t s) (Z.of_nat vi) = dm_pd (rep_matrix eps e' datums' t s) (Z.of_nat vi').
  Proof.
    intros Hv Hv' Hw Hw' H.
    destruct (image_end_matching eps unit ds Hin sel datums Hsel e He Hfew Hann Hdis) as (_ & A1 & A2 & A3 & _).
    destruct (image_end_matching eps unit ds' Hin' sel' datums' Hsel' e' He' Hfew' Hann' Hdis') as (_ & B1 & B2 & B3 & _).
    assert (F : Forall2 (fun d d' => (without_low s d d' /\ sel d = sel' d') /\ det_ok d' = true) ds ds').
    { assert (Ok : forall d', In d' ds' -> det_ok d' = true).
      { intros d' Hd. unfold det_input in Hin'. rewrite Forall_forall in Hin'. apply (Hin' d' Hd). }
      clear - H Ok. induction H as [|a b u w Hab H IH]; constructor; [split; [exact Hab|apply Ok; left; reflexivity]|apply IH; intros x Hx; apply Ok; right; exact Hx]. }
    rewrite (A1 t s v vi w wi Hv Hw), (B1 t s v vi' w wi' Hv' Hw'), (A2 t s v vi Hv), (B2 t s v vi' Hv'), (A3 t s v vi Hv), (B3 t s v vi' Hv').
    split; [|split]; apply (sum_Forall2 _ _ _ _ _ F); intros d d' ((L & ->) & Ok); (destruct (sel' d'); [|reflexivity]).
    - apply low_pairs; assumption.
    - apply low_count_gts; assumption.
    - apply low_count_pds; assumption.
  Qed.
End Matrix.
