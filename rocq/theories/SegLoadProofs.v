(* Filtered segmentation caches loaded without their labels. *)
From Verif Require Import Prelude Counting CacheModel CacheSpec CacheProofs ClsModel ClsSpec ClsLabelProofs ClsProofs FlowModel FlowProofs DetFlowModel DetFlowProofs Pipeline
  SegModel SegSpec SegPixelProofs SegProofs SegStoreProofs SegLabelProofs SegFlowProofs SegMetricProofs SegInfoProofs SegMore SegLoadSpec.
From Coq Require Import QArith String Lia.
Local Notation length := List.length (only parsing).
Local Notation concat := List.concat (only parsing).
Local Open Scope nat_scope.
Local Open Scope list_scope.

(* ---------------------------------------------------------------- label maps out of order *)
Lemma all_some_inv {A} (l : list (option A)) r : all_some l = Some r -> forall x, In x l -> x <> None.
Proof.
  revert r. induction l as [|[a|] l IH]; intros r H x Hx; [destruct Hx| |discriminate].
  cbn in H. destruct (all_some l) as [r'|]; [|discriminate]. destruct Hx as [<-|Hx]; [discriminate|]. eapply IH; eauto.
Qed.
Lemma by_items_inv d n f r k v : by_items d n f = Some r -> In (k, v) d -> (0 <= k < Z.of_nat n)%Z.
Proof.
  intros H Hin. unfold by_items in H. pose proof (all_some_inv _ _ H) as A.
  specialize (A _ (in_map _ _ _ Hin)). cbn [fst snd] in A. destruct ((0 <=? k) && (k <? Z.of_nat n))%Z%bool eqn:E; [lia|congruence].
Qed.

Section Dict.
  Variables (L : list string) (D : ldict).
  Hypothesis HD : sound_ldict L D.
  Local Notation n := (length D).
  Hypothesis Hlow : forall k, In k (map fst D) -> (k < Z.of_nat n)%Z.

  Lemma keys_perm : Permutation (map fst D) (map Z.of_nat (seq 0 n)).
  Proof.
    destruct HD as [ND HS]. apply NoDup_Permutation_bis; [exact ND|rewrite !map_length, seq_length; lia|].
    intros k Hk. pose proof (Hlow k Hk) as Hb. apply in_map_iff in Hk. destruct Hk as ([k' v] & <- & Hin). destruct (HS k' v Hin) as [H0 _]. cbn [fst] in *.
    apply in_map_iff. exists (Z.to_nat k'). split; [lia|]. apply in_seq. lia.
  Qed.
  Lemma n_le : n <= length L.
  Proof.
    destruct (Nat.le_gt_cases n (length L)) as [|Hgt]; [assumption|exfalso].
    assert (X : In (Z.of_nat (length L)) (map fst D)) by (apply (Permutation_in _ (Permutation_sym keys_perm)); apply in_map, in_seq; lia).
    apply in_map_iff in X. destruct X as ([k v] & E & Hin). destruct HD as [_ HS]. destruct (HS k v Hin) as (_ & l & _ & Hl). cbn [fst] in E. subst k.
    rewrite Nat2Z.id in Hl. assert (length L < length L) by (apply nth_error_Some; congruence). lia.
  Qed.
  Local Notation K := (firstn n L).
  Lemma K_length : length K = n.
  Proof. rewrite firstn_length. pose proof n_le. lia. Qed.
  Lemma nth_K i l : nth_error K i = Some l -> nth_error L i = Some l.
  Proof. intros H. assert (i < length K) by (apply nth_error_Some; congruence). rewrite K_length in H0. rewrite nth_firstn in H by exact H0. exact H. Qed.
  Lemma get_low i : i < n -> ldict_get D (Z.of_nat i) = Some (Some (lab K i)).
  Proof.
    intros Hi. apply (ldict_get_In L D _ _ HD).
    assert (X : In (Z.of_nat i) (map fst D)) by (apply (Permutation_in _ (Permutation_sym keys_perm)); apply in_map, in_seq; lia).
    apply in_map_iff in X. destruct X as ([k v] & E & Hin). cbn [fst] in E. subst k. destruct HD as [_ HS]. destruct (HS _ v Hin) as (_ & l & -> & Hl). rewrite Nat2Z.id in Hl.
    assert (E : nth_error K i = Some l) by (rewrite nth_firstn by exact Hi; exact Hl).
    rewrite (lab_nth K i) in E by (rewrite K_length; exact Hi). injection E as ->. exact Hin.
  Qed.
  Lemma by_range_low {V} (f : nat -> V) : by_range D n f = Some (map (fun i => (Some (lab K i), f i)) (seq 0 n)).
  Proof. unfold by_range. apply all_some_map. intros i Hi. apply in_seq in Hi. rewrite get_low by lia. reflexivity. Qed.
  Lemma by_items_low f : by_items D n f = Some (map (fun kv => (snd kv, f (Z.to_nat (fst kv)))) D).
  Proof.
    unfold by_items. apply all_some_map. intros [k v] Hin. cbn [fst snd]. pose proof (Hlow k (in_map fst _ _ Hin)) as Hb. destruct HD as [_ HS]. destruct (HS k v Hin) as [H0 _].
    destruct ((0 <=? k) && (k <? Z.of_nat n))%Z%bool eqn:E; [reflexivity|lia].
  Qed.
  Definition K_order : list string := map (fun kv => lab K (Z.to_nat (fst kv))) D.
  Lemma K_order_perm : Permutation K_order K.
  Proof.
    unfold K_order. rewrite <- (map_map fst (fun k => lab K (Z.to_nat k))). rewrite (Permutation_map _ keys_perm), map_map.
    pose proof (list_labs K) as E. rewrite K_length in E. etransitivity; [|rewrite E; reflexivity].
    erewrite map_ext; [reflexivity|]. intros i. cbn beta. rewrite Nat2Z.id. reflexivity.
  Qed.
  Lemma items_lists (h : string -> Q) (f : nat -> Q) :
    (forall i l, nth_error K i = Some l -> (f i == h l)%Q) ->
    lists_of K_order h (map (fun kv => (snd kv, f (Z.to_nat (fst kv)))) D).
  Proof.
    intros H. unfold lists_of, K_order. assert (G : forall d, (forall kv, In kv d -> In kv D) ->
      Forall2 (fun l x => fst x = Some l /\ (snd x == h l)%Q) (map (fun kv => lab K (Z.to_nat (fst kv))) d) (map (fun kv => (snd kv, f (Z.to_nat (fst kv)))) d)).
    { induction d as [|[k v] d IH]; intros Hd; constructor; [|apply IH; intros; apply Hd; right; assumption].
      cbn [fst snd]. pose proof (Hd _ (or_introl eq_refl)) as Hin. pose proof (Hlow k (in_map fst _ _ Hin)) as Hb. destruct HD as [_ HS]. destruct (HS k v Hin) as [H0 (l & -> & Hl)].
      assert (E : nth_error K (Z.to_nat k) = Some l) by (rewrite nth_firstn by lia; exact Hl).
      pose proof E as E'. rewrite (lab_nth K (Z.to_nat k)) in E' by (rewrite K_length; lia). injection E' as E'. rewrite E'.
      split; [reflexivity|]. apply H. exact E. }
    apply G. auto.
  Qed.
End Dict.

(* ---------------------------------------------------------------- fewer rows and columns *)
Lemma zsum_zero {A} (f : A -> Z) l : (forall x, In x l -> f x = 0%Z) -> zsum (map f l) = 0%Z.
Proof. induction l as [|x l IH]; intros H; cbn; [reflexivity|]. rewrite (H x (or_introl eq_refl)). fold (zsum (map f l)). rewrite IH; [reflexivity|]. intros; apply H; right; assumption. Qed.
Lemma zsum_cut (f : nat -> Z) a b : a <= b -> (forall i, a <= i < b -> f i = 0%Z) -> zsum (map f (seq 0 b)) = zsum (map f (seq 0 a)).
Proof.
  intros Hab H. replace b with (a + (b - a)) by lia. rewrite seq_app, map_app, zsum_app. rewrite (zsum_zero f (seq (0 + a) (b - a))); [lia|].
  intros i Hi. apply in_seq in Hi. apply H. lia.
Qed.
Section Cut.
  Variables (m : nat -> nat -> Z) (M n : nat).
  Hypothesis HM : M <= n.
  Hypothesis Hz : forall i j, M < i \/ M < j -> m i j = 0%Z.
  Lemma cut_row i : mrow M m i = mrow n m i.
  Proof. unfold mrow. f_equal. symmetry. apply zsum_cut; [lia|]. intros j Hj. apply Hz. lia. Qed.
  Lemma cut_col j : mcol M m j = mcol n m j.
  Proof. unfold mcol. f_equal. symmetry. apply (zsum_cut (fun i => m i j)); [lia|]. intros i Hi. apply Hz. lia. Qed.
  Lemma cut_iou i j : m_iou M m i j = m_iou n m i j.
  Proof. unfold m_iou. rewrite cut_row, cut_col. reflexivity. Qed.
  Lemma cut_upd j : m_unmatched_pd M m j = m_unmatched_pd n m j.
  Proof. unfold m_unmatched_pd. rewrite cut_col. reflexivity. Qed.
  Lemma cut_ugt j : m_unmatched_gt M m j = m_unmatched_gt n m j.
  Proof. unfold m_unmatched_gt. rewrite cut_row. reflexivity. Qed.
  Lemma cut_p i : m_precision M m i = m_precision n m i.
  Proof. unfold m_precision. rewrite cut_col. reflexivity. Qed.
  Lemma cut_r i : m_recall M m i = m_recall n m i.
  Proof. unfold m_recall. rewrite cut_row. reflexivity. Qed.
  Lemma cut_f i : m_f1 M m i = m_f1 n m i.
  Proof. unfold m_f1. rewrite cut_p, cut_r. reflexivity. Qed.
  Lemma cut_acc : m_accuracy M m = m_accuracy n m.
  Proof.
    unfold m_accuracy. cbv zeta. f_equal.
    - f_equal. f_equal. f_equal. symmetry. apply (zsum_cut (fun i => m (S i) (S i))); [lia|]. intros i Hi. apply Hz. lia.
    - f_equal. rewrite (zsum_ext (fun i => zsum (map (m i) (seq 0 (S M)))) (fun i => zsum (map (m i) (seq 0 (S n)))) (seq 0 (S M))).
      + symmetry. apply (zsum_cut (fun i => zsum (map (m i) (seq 0 (S n))))); [lia|]. intros i Hi. apply zsum_zero. intros j _. apply Hz. lia.
      + intros i _. symmetry. apply zsum_cut; [lia|]. intros j Hj. apply Hz. lia.
  Qed.
End Cut.

(* ---------------------------------------------------------------- the rows that are left *)
Section Left.
  Variables (ss : list segmentation) (v : view) (T : list (list srow)).
  Hypothesis Hc : Forall clean ss.
  Hypothesis HT : holds ss v T.
  Local Notation L := (seg_labels ss).

  Lemma prefix_extends k : extends (seg_labels (firstn (S k) ss)) L.
  Proof. rewrite <- (firstn_skipn (S k) ss) at 2. rewrite seg_labels_app. apply first_appearance_extends. Qed.

  Lemma seg_extract_gen :
    sound_ldict L (seg_extract_labels T) /\
    (forall x, In x (map fst (seg_extract_labels T)) <-> (In x (map s_gt (concat T)) \/ In x (map s_pd (concat T))) /\ (x <> -1)%Z).
  Proof.
    unfold seg_extract_labels.
    assert (G : forall ts d, sound_ldict L d ->
      (forall r, In r (concat ts) -> id_label_ok L (s_gt r) (s_gt_label r) /\ id_label_ok L (s_pd r) (s_pd_label r)) ->
      let d' := fold_left (fun d t => ldict_update (ldict_update d (det_table_labels s_gt s_gt_label t))
                              (det_table_labels s_pd s_pd_label t)) ts d in
      sound_ldict L d' /\ (forall x, In x (map fst d') <->
         In x (map fst d) \/ (In x (map s_gt (concat ts)) \/ In x (map s_pd (concat ts))) /\ (x <> -1)%Z)).
    { induction ts as [|t ts IH]; intros d Hd H; cbn [fold_left List.concat map].
      - split; [exact Hd|]. cbn. tauto.
      - assert (Ht : forall r, In r t -> id_label_ok L (s_gt r) (s_gt_label r) /\ id_label_ok L (s_pd r) (s_pd_label r)) by (intros; apply H; cbn; apply in_app_iff; auto).
        destruct (det_table_labels_spec L s_gt s_gt_label t) as [A1 A2]; [intros r Hr; apply (Ht r Hr)|].
        destruct (det_table_labels_spec L s_pd s_pd_label t) as [B1 B2]; [intros r Hr; apply (Ht r Hr)|].
        destruct (ldict_update_spec L _ d Hd A1) as [U1 U2].
        destruct (ldict_update_spec L _ _ U1 B1) as [V1 V2].
        destruct (IH _ V1) as [I1 I2]; [intros r Hr; apply H; cbn; apply in_app_iff; auto|].
        split; [exact I1|]. intros x. rewrite I2, V2, U2, A2, B2, !map_app, !in_app_iff. tauto. }
    destruct (G T []) as [G1 G2].
    - split; [constructor|intros ? ? []].
    - intros r Hr. destruct (holds_row ss v T Hc HT r Hr) as (k & s & _ & _ & _ & Hg & Hp). split.
      + destruct Hg as [->|(i & l & -> & -> & Hl & _)]; [left; reflexivity|right]. split; [lia|]. rewrite Nat2Z.id. eauto.
      + destruct Hp as [->|(i & l & -> & -> & Hl & _)]; [left; reflexivity|right]. split; [lia|]. rewrite Nat2Z.id. eauto.
    - split; [exact G1|]. intros x. rewrite G2. cbn. tauto.
  Qed.

  Lemma base_prefix r : In r (base ss) -> exists k s, nth_error ss k = Some s /\ s_datum r = Z.of_nat k /\
    (forall l, s_gt_label r = Some l -> In l (seg_labels (firstn (S k) ss))) /\ (forall l, s_pd_label r = Some l -> In l (seg_labels (firstn (S k) ss))).
  Proof.
    intros Hr. destruct (base_datum ss [] 0 r Hr) as (k & s & L' & Hk & Hd & EL & _). cbn [Nat.add] in Hd. exists k, s. split; [exact Hk|].
    assert (N : NoDup L') by (rewrite EL; apply first_appearance_NoDup; constructor).
    assert (Hs : clean s) by (rewrite Forall_forall in Hc; apply Hc; eapply nth_error_In; exact Hk).
    destruct (drows_In L' k s N Hs r Hd) as (i & j & _ & _ & _ & D & _ & G & _ & P & _). split; [exact D|].
    change (seg_labels (firstn (S k) ss)) with (first_appearance [] (concat (map seg_datum_labels (firstn (S k) ss)))). rewrite <- EL.
    split; intros l E; [rewrite G in E; destruct i as [|i]|rewrite P in E; destruct j as [|j]]; try discriminate; cbn in E; eapply nth_error_In; exact E.
  Qed.
  Lemma base_every k s i l : nth_error ss k = Some s -> nth_error (seg_labels (firstn (S k) ss)) i = Some l ->
    (exists r, In r (base ss) /\ s_datum r = Z.of_nat k /\ s_gt r = Z.of_nat i /\ s_gt_label r = Some l) /\
    (exists r, In r (base ss) /\ s_datum r = Z.of_nat k /\ s_pd r = Z.of_nat i /\ s_pd_label r = Some l).
  Proof.
    intros Hk Hl. destruct (writes_from_nth ss [] 0 k s Hk) as (L' & Hw & EL & _). cbn [Nat.add] in Hw.
    change (seg_labels (firstn (S k) ss)) with (first_appearance [] (concat (map seg_datum_labels (firstn (S k) ss)))) in Hl. rewrite <- EL in Hl.
    assert (N : NoDup L') by (rewrite EL; apply first_appearance_NoDup; constructor).
    assert (Hs : clean s) by (rewrite Forall_forall in Hc; apply Hc; eapply nth_error_In; exact Hk).
    assert (Hb : forall r, In r (drows L' k s) -> In r (base ss)) by (intros r Hr; apply in_concat; exists (drows L' k s); split; [eapply nth_error_In; exact Hw|exact Hr]).
    assert (Hi : S i <= length L') by (apply nth_error_Some; congruence).
    destruct (drows_ids L' k s (S i) Hi) as [A B]. apply in_map_iff in A. apply in_map_iff in B. destruct A as (r1 & E1 & R1). destruct B as (r2 & E2 & R2). split.
    - exists r1. destruct (drows_In L' k s N Hs r1 R1) as (i' & j & _ & _ & _ & D & G & GL & _). split; [auto|]. split; [exact D|]. split; [lia|].
      assert (i' = S i) by lia. subst i'. rewrite GL. exact Hl.
    - exists r2. destruct (drows_In L' k s N Hs r2 R2) as (i' & j & _ & _ & _ & D & _ & _ & P & PL & _). split; [auto|]. split; [exact D|]. split; [lia|].
      assert (j = S i) by lia. subst j. rewrite PL. exact Hl.
  Qed.

  Lemma left_ids i : ((In (Z.of_nat i) (map s_gt (concat T)) \/ In (Z.of_nat i) (map s_pd (concat T))) <-> exists l, nth_error L i = Some l /\ remains ss v l).
  Proof.
    destruct HT as [ET _]. rewrite ET. split.
    - intros H. assert (G : exists b, In b (base ss) /\ rkept ss v b = true /\ (s_gt (mask_row ss v b) = Z.of_nat i \/ s_pd (mask_row ss v b) = Z.of_nat i)).
      { destruct H as [H|H]; apply in_map_iff in H; destruct H as (r & E & Hr); apply in_map_iff in Hr; destruct Hr as (b & <- & Hb); apply filter_In in Hb; exists b; intuition. }
      destruct G as (b & Hb & Hk & HE). destruct (base_row ss b Hc Hb) as (k & s & Hs & Hd & IG & IP).
      destruct (base_prefix b Hb) as (k' & s' & Hs' & Hd' & PG & PP). assert (k' = k) by (destruct Hd as (D & _); lia). subst k'.
      rewrite Hs in Hs'. injection Hs' as <-.
      unfold rkept in Hk. rewrite (describes_datum ss k s b Hs Hd) in Hk.
      unfold mask_row in HE. cbn [s_gt s_pd] in HE. rewrite (describes_datum ss k s b Hs Hd) in HE. cbn [option_map] in HE.
      destruct HE as [E|E]; unfold mask_id in E.
      + destruct (s_gt_label b) as [l|]; [|lia]. destruct (v_gt v s l) eqn:Ev; [|lia]. destruct IG as (i' & Ei & Hl). assert (i' = i) by lia. subst i'.
        exists l. split; [exact Hl|]. exists k, s. auto.
      + destruct (s_pd_label b) as [l|]; [|lia]. destruct (v_pd v s l) eqn:Ev; [|lia]. destruct IP as (i' & Ei & Hl). assert (i' = i) by lia. subst i'.
        exists l. split; [exact Hl|]. exists k, s. auto.
    - intros (l & Hl & k & s & Hs & Hd & Hp & Hv). destruct (In_nth_error _ _ Hp) as (i' & Hi').
      assert (i' = i) by (apply (NoDup_nth_inj L i' i l (seg_labels_NoDup ss)); [eapply extends_nth; [apply prefix_extends|exact Hi']|exact Hl]). subst i'.
      destruct (base_every k s i l Hs Hi') as [(r1 & R1 & D1 & G1 & L1) (r2 & R2 & D2 & P2 & L2)].
      assert (O : forall r, s_datum r = Z.of_nat k -> datum_of ss r = Some s) by (intros r E; unfold datum_of; rewrite E, Nat2Z.id; exact Hs).
      destruct Hv as [Hv|Hv]; [left|right].
      + apply in_map_iff. exists (mask_row ss v r1). split.
        * unfold mask_row. cbn [s_gt]. rewrite (O r1 D1), L1. cbn [option_map mask_id]. rewrite Hv. exact G1.
        * apply in_map. apply filter_In. split; [exact R1|]. unfold rkept. rewrite (O r1 D1). exact Hd.
      + apply in_map_iff. exists (mask_row ss v r2). split.
        * unfold mask_row. cbn [s_pd]. rewrite (O r2 D2), L2. cbn [option_map mask_id]. rewrite Hv. exact P2.
        * apply in_map. apply filter_In. split; [exact R2|]. unfold rkept. rewrite (O r2 D2). exact Hd.
  Qed.
  Lemma left_keys x : In x (map fst (seg_extract_labels T)) <-> exists i l, x = Z.of_nat i /\ nth_error L i = Some l /\ remains ss v l.
  Proof.
    destruct seg_extract_gen as [[_ HS] HK]. split.
    - intros Hx. pose proof Hx as Hx'. apply HK in Hx'. destruct Hx' as [Hx' Hn]. apply in_map_iff in Hx. destruct Hx as ([k u] & <- & Hin). destruct (HS k u Hin) as [H0 _]. cbn [fst] in *.
      rewrite <- (Z2Nat.id k H0) in Hx'. apply left_ids in Hx'. destruct Hx' as (l & Hl & Hr). exists (Z.to_nat k), l. split; [lia|auto].
    - intros (i & l & -> & Hl & Hr). apply HK. split; [|lia]. apply left_ids. eauto.
  Qed.

  Variable ed : expr.
  Variable sel : segmentation -> bool.
  Hypothesis Hn : countable ss.
  Hypothesis Hed : datum_expr ss ed sel.
  Local Notation D := (seg_extract_labels T).
  Local Notation m := (seg_matrix T ed).

  Lemma zero_cell i j : (forall k, In k (map fst D) -> (k < Z.of_nat (length D))%Z) -> length D < i \/ length D < j -> m i j = 0%Z.
  Proof.
    intros Hlow H. rewrite matrix_rsum. assert (Z0 : rsum (fun r => eval_expr ed r && (at_index i (s_gt r) && at_index j (s_pd r))) (concat T) = 0%Z).
    { unfold rsum. apply zsum_zero. intros r Hr.
      assert (Hb : (s_gt r < Z.of_nat (length D))%Z /\ (s_pd r < Z.of_nat (length D))%Z).
      { destruct seg_extract_gen as [_ HK]. destruct (holds_row ss v T Hc HT r Hr) as (k & s & _ & _ & _ & Hg & Hp). split.
        - destruct Hg as [->|(i' & l & E & _)]; [lia|]. apply Hlow. apply HK. split; [left; apply in_map; exact Hr|lia].
        - destruct Hp as [->|(i' & l & E & _)]; [lia|]. apply Hlow. apply HK. split; [right; apply in_map; exact Hr|lia]. }
      replace (at_index i (s_gt r) && at_index j (s_pd r)) with false; [rewrite andb_false_r; reflexivity|].
      symmetry. apply andb_false_iff. destruct H as [H|H]; [left; destruct i as [|i]|right; destruct j as [|j]]; try lia; cbn [at_index]; lia. }
    rewrite Z0. reflexivity.
  Qed.

  Theorem left_report : (forall k, In k (map fst D) -> (k < Z.of_nat (length D))%Z) ->
    exists rep, seg_report D m = Some rep /\ report_about ss (with_datums v sel) (firstn (length D) L) rep.
  Proof.
    intros Hlow. destruct seg_extract_gen as [HD _]. set (u := with_datums v sel).
    assert (Hm : forall i j, i <= length L -> j <= length L -> m i j = Z.of_nat (cell ss u i j)).
    { intros i j Hi Hj. apply (matrix_cell ss v T ed sel i j); auto.
      - destruct i as [|i]; [reflexivity|]. cbn. rewrite lab_nth by lia. reflexivity.
      - destruct j as [|j]; [reflexivity|]. cbn. rewrite lab_nth by lia. reflexivity. }
    assert (Hs : (Z.of_nat (vcount ss u (fun _ _ => true)) < 2 ^ 64)%Z) by (eapply Z.le_lt_trans; [apply vcount_bound; exact Hc|exact Hn]).
    pose proof (n_le L D HD Hlow) as HM. set (M := length D) in *. set (K := firstn M L).
    assert (HK : length K = M) by (exact (K_length L D HD Hlow)).
    assert (NK : forall i l, nth_error K i = Some l -> nth_error L i = Some l) by (exact (nth_K L D HD Hlow)).
    assert (Hz : forall i j, M < i \/ M < j -> m i j = 0%Z) by (intros; apply zero_cell; assumption).
    unfold seg_report. fold M. unfold M at 1. rewrite !(by_items_low L D HD Hlow), !(by_range_low L D HD Hlow). fold M. fold K.
    rewrite map_map. cbn [fst snd].
    rewrite (all_some_map _ (fun i => (Some (lab K i), map (fun j => (Some (lab K j), m_iou M m i j)) (seq 0 M)))).
    2:{ intros i _. unfold M at 1. rewrite (by_range_low L D HD Hlow). reflexivity. }
    eexists. split; [reflexivity|]. unfold report_about. cbn [sr_accuracy sr_confusion sr_unmatched_pd sr_unmatched_gt sr_miou sr_precision sr_recall sr_f1 sr_iou].
    rewrite <- HK at 2 3 4.
    split; [rewrite (cut_acc m M (length L) HM Hz), (m_accuracy_ok ss u m Hm Hs); reflexivity|].
    split. { apply Forall2_labs. intros i a Hi. split; [reflexivity|]. rewrite <- HK at 1. apply lists_labs. intros j b Hj. rewrite (cut_iou m M (length L) HM Hz), (m_iou_ok ss u m Hm Hs i j a b (NK _ _ Hi) (NK _ _ Hj)). reflexivity. }
    split. { apply lists_labs. intros i l Hi. rewrite (cut_upd m M (length L) HM Hz), (m_upd_ok ss u m Hm Hs i l (NK _ _ Hi)). reflexivity. }
    split. { apply lists_labs. intros i l Hi. rewrite (cut_ugt m M (length L) HM Hz), (m_ugt_ok ss u m Hm Hs i l (NK _ _ Hi)). reflexivity. }
    split.
    { clearbody M. unfold m_miou. destruct M as [|k]; [apply length_zero_iff_nil; exact HK|].
      split; [intros C; rewrite C in HK; discriminate|]. unfold qmean. rewrite map_length, HK.
      assert (X : map (fun i => m_iou (S k) m i i) (seq 0 (S k)) = map (fun l => spec_iou ss u l l) K).
      { rewrite (list_labs K), map_map, HK. apply map_ext_in. intros i Hi. apply in_seq in Hi. rewrite (cut_iou m (S k) (length L) HM Hz).
        apply (m_iou_ok ss u m Hm Hs); apply NK, lab_nth; lia. }
      rewrite X. reflexivity. }
    exists (K_order L D). split; [exact (K_order_perm L D HD Hlow)|].
    split. { apply (items_lists L D HD Hlow). intros i l Hi. rewrite (cut_p m M (length L) HM Hz), (m_precision_ok ss u m Hm Hs i l (NK _ _ Hi)). reflexivity. }
    split. { apply (items_lists L D HD Hlow). intros i l Hi. rewrite (cut_r m M (length L) HM Hz), (m_recall_ok ss u m Hm Hs i l (NK _ _ Hi)). reflexivity. }
    split. { apply (items_lists L D HD Hlow). intros i l Hi. rewrite (cut_f m M (length L) HM Hz). apply (m_f1_ok ss u m Hm Hs i l (NK _ _ Hi)). }
    apply (items_lists L D HD Hlow (fun l => spec_iou ss u l l) (fun i => m_iou M m i i)). intros i l Hi. rewrite (cut_iou m M (length L) HM Hz), (m_iou_ok ss u m Hm Hs i i l l (NK _ _ Hi) (NK _ _ Hi)). reflexivity.
  Qed.
End Left.

(* ---------------------------------------------------------------- loading without labels *)
Section Load.
  Variables (ss : list segmentation) (v w : view) (e e' : seval) (bs rpf : nat) (ed eg ep : expr) (d : list (nat * list srow)).
  Hypothesis Ho : obtained ss v e.
  Hypothesis Hc : Forall clean ss.
  Hypothesis Hd : datum_expr ss ed (v_datum w).
  Hypothesis Hg : gt_expr ss eg (v_gt w).
  Hypothesis Hp : pd_expr ss ep (v_pd w).
  Hypothesis Hf : seg_filter_file bs rpf e ed eg ep = Done e'.
  Hypothesis Hdir : Permutation d (seg_filter_dir bs rpf e ed eg ep).
  Local Notation u := (and_view v w).
  Local Notation L := (seg_labels ss).
  Local Notation D := (seg_extract_labels (se_tables e')).

  Lemma loaded_eq : seg_load d None = MkSE (se_tables e') D.
  Proof. rewrite <- (load_filtered bs rpf e e' ed eg ep d Hf Hdir). reflexivity. Qed.
  Lemma holds_u : holds ss u (se_tables e').
  Proof. apply (obtained_holds ss u e'); [|exact Hc]. eapply ob_filter_files; eassumption. Qed.

  Lemma first_low m : first_labels ss u m ->
    length D = Nat.min m (length L) /\ forall k, In k (map fst D) -> (k < Z.of_nat (length D))%Z.
  Proof.
    intros F. pose proof (left_keys ss u (se_tables e') Hc holds_u) as HK. destruct (seg_extract_gen ss u (se_tables e') Hc holds_u) as [[ND _] _].
    assert (P : Permutation (map fst D) (map Z.of_nat (seq 0 (Nat.min m (length L))))).
    { apply NoDup_Permutation; [exact ND|apply FinFun.Injective_map_NoDup; [intros a b; apply Nat2Z.inj|apply seq_NoDup]|].
      intros x. rewrite HK, in_map_iff. split.
      - intros (i & l & -> & Hl & Hr). exists i. split; [reflexivity|]. apply in_seq. apply (F i l Hl) in Hr. assert (i < length L) by (apply nth_error_Some; congruence). lia.
      - intros (i & <- & Hi). apply in_seq in Hi. destruct (nth_error L i) as [l|] eqn:Hl; [|apply nth_error_None in Hl; lia]. exists i, l. repeat split; auto. apply (F i l Hl). lia. }
    assert (E : length D = Nat.min m (length L)) by (apply Permutation_length in P; rewrite !map_length, seq_length in P; exact P).
    split; [exact E|]. intros k Hk. apply (Permutation_in _ P) in Hk. apply in_map_iff in Hk. destruct Hk as (i & <- & Hi). apply in_seq in Hi. lia.
  Qed.

  Theorem load_works m ed' sel : countable ss -> datum_expr ss ed' sel -> first_labels ss u m ->
    exists rep, seg_compute (seg_load d None) ed' = Some rep /\ report_about ss (with_datums u sel) (firstn m L) rep.
  Proof.
    intros Hn He F. destruct (first_low m F) as [E Hlow]. rewrite loaded_eq. unfold seg_compute. cbn [se_labels se_tables].
    destruct (left_report ss u (se_tables e') Hc holds_u ed' sel Hn He Hlow) as (rep & H1 & H2). exists rep. split; [exact H1|].
    rewrite E in H2. destruct (Nat.min_spec m (length L)) as [[Hm Em]|[Hm Em]]; rewrite Em in H2; [exact H2|].
    rewrite firstn_all2 by exact Hm. rewrite firstn_all in H2. exact H2.
  Qed.

  Theorem load_needs ed' rep : seg_compute (seg_load d None) ed' = Some rep -> exists m, first_labels ss u m.
  Proof.
    rewrite loaded_eq. unfold seg_compute. cbn [se_labels se_tables]. intros H.
    destruct (seg_extract_gen ss u (se_tables e') Hc holds_u) as [HD _].
    assert (Hlow : forall k, In k (map fst D) -> (k < Z.of_nat (length D))%Z).
    { intros k Hk. apply in_map_iff in Hk. destruct Hk as ([k' x] & <- & Hin). cbn [fst].
      unfold seg_report in H. cbv zeta in H. destruct (by_range _ _ _); [|discriminate]. destruct (by_range _ _ _); [|discriminate]. destruct (by_range _ _ _); [|discriminate].
      destruct (by_items _ _ _) eqn:E in H; [|discriminate]. eapply by_items_inv in E; [|exact Hin]. lia. }
    exists (length D). intros i l Hl. split.
    - intros Hr. assert (X : In (Z.of_nat i) (map fst D)) by (apply (left_keys ss u _ Hc holds_u); eauto). apply Hlow in X. lia.
    - intros Hi. assert (X : In (Z.of_nat i) (map fst D)).
      { apply (Permutation_in _ (Permutation_sym (keys_perm L D HD Hlow))). apply in_map, in_seq. lia. }
      apply (left_keys ss u _ Hc holds_u) in X. destruct X as (i' & l' & E & Hl' & Hr). apply Nat2Z.inj in E. subst i'. rewrite Hl in Hl'. injection Hl' as <-. exact Hr.
  Qed.
End Load.
