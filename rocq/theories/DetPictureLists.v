(* A table that shows some images of a data set: the examples and counts computed from it
   are the lists of the specification, in the order of the input. *)
From Verif Require Import Prelude Counting CacheModel CacheSpec CacheProofs SortProofs ClsModel ClsLabelProofs DetModel DetExModel DetSpec
  DetMatchProofs DetRankProofs DetCountProofs DetMain DetConfProofs DetMatchingProofs DetFilterSpec DetFilterProofs DetFilterEntries DetTurnSpec DetTurnProofs
  DetFilterPruned DetPicture.
From Coq Require Import Lia.
From Coq Require String.
Local Open Scope nat_scope.
Local Open Scope list_scope.

(* ------------------------------------------------------------------ *)
(** * Strictly sorted lists *)

Definition strictly {A} (leb : A -> A -> bool) (a b : A) : Prop := leb a b = true /\ a <> b.

Lemma sorted_same {A} (R : A -> A -> Prop) : (forall a b, R a b -> R b a -> False) ->
  forall l l', StronglySorted R l -> StronglySorted R l' -> (forall x, In x l <-> In x l') -> l = l'.
Proof.
  intros As. induction l as [|a l IH]; intros [|b l'] H H' E; [reflexivity|destruct (proj2 (E b)); left; reflexivity|destruct (proj1 (E a)); left; reflexivity|].
  inversion H as [|? ? S F]; subst. inversion H' as [|? ? S' F']; subst. rewrite Forall_forall in F, F'.
  assert (Eab : a = b).
  { destruct (proj1 (E a) (or_introl eq_refl)) as [<-|Ha]; [reflexivity|]. destruct (proj2 (E b) (or_introl eq_refl)) as [<-|Hb]; [reflexivity|].
    exfalso. apply (As a b); auto. }
  subst b. f_equal. apply IH; try assumption. intros x. split; intros Hx.
  - destruct (proj1 (E x) (or_intror Hx)) as [<-|Hx']; [|exact Hx']. exfalso. apply (As a a); apply F; exact Hx.
  - destruct (proj2 (E x) (or_intror Hx)) as [<-|Hx']; [|exact Hx']. exfalso. apply (As a a); apply F'; exact Hx.
Qed.
Lemma strictly_asym {A} (leb : A -> A -> bool) : (forall a b, leb a b = true -> leb b a = true -> a = b) -> forall a b, strictly leb a b -> strictly leb b a -> False.
Proof. intros As a b [H N] [H' _]. apply N. apply As; assumption. Qed.
Lemma sorted_strictly {A} (leb : A -> A -> bool) l : StronglySorted (fun a b => leb a b = true) l -> NoDup l -> StronglySorted (strictly leb) l.
Proof.
  induction 1 as [|a l H IH F]; intros N; constructor; inversion N; subst; [auto|]. rewrite Forall_forall in *. intros x Hx. split; [auto|congruence].
Qed.
Lemma isort_strictly {A} (leb : A -> A -> bool) (tot : forall a b, leb a b = true \/ leb b a = true)
    (tr : forall a b c, leb a b = true -> leb b c = true -> leb a c = true) l : NoDup l -> StronglySorted (strictly leb) (isort leb l).
Proof.
  intros N. apply sorted_strictly; [apply isort_sorted; assumption|]. eapply Permutation_NoDup; [apply isort_perm|exact N].
Qed.
Lemma sorted_concat_map {A B} (R : B -> B -> Prop) (R0 : A -> A -> Prop) (f : A -> list B) l : StronglySorted R0 l ->
  (forall a, In a l -> StronglySorted R (f a)) -> (forall a b, In a l -> In b l -> R0 a b -> forall x y, In x (f a) -> In y (f b) -> R x y) ->
  StronglySorted R (flat_map f l).
Proof.
  induction 1 as [|a l H IH F]; intros Hs Hc; [constructor|]. cbn. apply StronglySorted_app. rewrite Forall_forall in F. split; [apply Hs; left; reflexivity|]. split.
  - apply IH; [intros b Hb; apply Hs; right; exact Hb|]. intros b c Hb Hd. apply Hc; right; assumption.
  - intros x y Hx Hy. apply in_flat_map in Hy. destruct Hy as (b & Hb & Hy). apply (Hc a b); auto; [left; reflexivity|right; exact Hb].
Qed.
Lemma sorted_map_in {A B} (R : A -> A -> Prop) (R' : B -> B -> Prop) (f : A -> B) l : StronglySorted R l ->
  (forall a b, In a l -> In b l -> R a b -> R' (f a) (f b)) -> StronglySorted R' (map f l).
Proof.
  induction 1 as [|a l H IH F]; intros Hc; [constructor|]. cbn. constructor; [apply IH; intros b c Hb Hd; apply Hc; right; assumption|].
  rewrite Forall_forall in *. intros y Hy. apply in_map_iff in Hy. destruct Hy as (b & <- & Hb). apply Hc; auto; [left; reflexivity|right; exact Hb].
Qed.
Definition earlier {A} (a b : nat * A) : Prop := fst a < fst b.
Lemma numbered_sorted {A} (l : list A) : StronglySorted earlier (numbered l).
Proof.
  unfold numbered. generalize 0. induction l as [|a l IH]; intros k; cbn; constructor; [apply IH|]. apply Forall_forall. intros [i x] Hx.
  apply in_combine_l in Hx. apply in_seq in Hx. unfold earlier. cbn. lia.
Qed.
Lemma map_flat_map {A B C} (f : B -> C) (g : A -> list B) l : map f (flat_map g l) = flat_map (fun x => map f (g x)) l.
Proof. induction l as [|a l IH]; [reflexivity|]. cbn. rewrite map_app, IH. reflexivity. Qed.
Lemma flat_map_in {A B} (f g : A -> list B) l : (forall x, In x l -> f x = g x) -> flat_map f l = flat_map g l.
Proof. induction l as [|a l IH]; intros H; [reflexivity|]. cbn. rewrite H by (left; reflexivity). f_equal. apply IH. intros x Hx. apply H. right. exact Hx. Qed.
Lemma map_const_length {A B C} (c : C) (l : list A) (l' : list B) : length l = length l' -> map (fun _ => c) l = map (fun _ => c) l'.
Proof. revert l'. induction l as [|a l IH]; intros [|b l'] E; try discriminate; [reflexivity|]. cbn. f_equal. apply IH. cbn in E. lia. Qed.

Definition lex_lt (a b : list Z) : Prop := strictly lex_leb a b.
Lemma z5_leb_trans a b c : z5_leb a b = true -> z5_leb b c = true -> z5_leb a c = true.
Proof. destruct a as [[[[]]]], b as [[[[]]]], c as [[[[]]]]. apply lex_leb_trans. Qed.
Lemma z5_leb_total a b : z5_leb a b = true \/ z5_leb b a = true.
Proof. destruct a as [[[[]]]], b as [[[[]]]]. apply lex_leb_total. Qed.
Lemma z5_leb_antisym a b : z5_leb a b = true -> z5_leb b a = true -> a = b.
Proof. destruct a as [[[[]]]], b as [[[[]]]]. intros H H'. assert (E := lex_leb_antisym _ _ H H'). congruence. Qed.
Lemma z5_lt a1 a2 a3 a4 a5 b1 b2 b3 b4 b5 : (a1 < b1 \/ (a1 = b1 /\ (a2 < b2 \/ (a2 = b2 /\ a3 < b3))))%Z ->
  strictly z5_leb (a1, a2, a3, a4, a5) (b1, b2, b3, b4, b5).
Proof.
  intros H. split; [|intros E; injection E; lia]. unfold z5_leb. cbn.
  destruct (Z.ltb_spec a1 b1), (Z.eqb_spec a1 b1); try reflexivity; try lia; cbn;
  destruct (Z.ltb_spec a2 b2), (Z.eqb_spec a2 b2); try reflexivity; try lia; cbn;
  destruct (Z.ltb_spec a3 b3), (Z.eqb_spec a3 b3); try reflexivity; lia.
Qed.
Lemma zzz_lt (a1 a2 a3 b1 b2 b3 : Z) : (a1 < b1 \/ (a1 = b1 /\ (a2 < b2 \/ (a2 = b2 /\ a3 < b3))))%Z ->
  strictly zzz_leb (a1, a2, a3) (b1, b2, b3).
Proof.
  intros H. split; [|intros E; injection E; lia]. unfold zzz_leb. cbn.
  destruct (Z.ltb_spec a1 b1), (Z.eqb_spec a1 b1); try reflexivity; try lia; cbn;
  destruct (Z.ltb_spec a2 b2), (Z.eqb_spec a2 b2); try reflexivity; try lia; cbn;
  destruct (Z.ltb_spec a3 b3), (Z.eqb_spec a3 b3); try reflexivity; lia.
Qed.

(* ------------------------------------------------------------------ *)
(** * Pairs of an image *)

Section Pairs.
  Variables (d : detection) (Q : nat * annotation -> nat * annotation -> bool).
  Definition pairs_n : list ((nat * annotation) * (nat * annotation)) :=
    flat_map (fun ga => flat_map (fun pa => if Q ga pa then [(ga, pa)] else []) (numbered (t_pds d))) (numbered (t_gts d)).
  Lemma pairs_n_In g ga p pa : In ((g, ga), (p, pa)) pairs_n <-> nth_error (t_gts d) g = Some ga /\ nth_error (t_pds d) p = Some pa /\ Q (g, ga) (p, pa) = true.
  Proof.
    unfold pairs_n. rewrite in_flat_map. split.
    - intros ([g' ga'] & Hg & H). apply in_flat_map in H. destruct H as ([p' pa'] & Hp & H). destruct (Q (g', ga') (p', pa')) eqn:E; [|destruct H].
      destruct H as [H|[]]. injection H as <- <- <- <-. apply numbered_In in Hg, Hp. auto.
    - intros (Hg & Hp & H). exists (g, ga). split; [apply numbered_In; exact Hg|]. apply in_flat_map. exists (p, pa).
      split; [apply numbered_In; exact Hp|]. rewrite H. left. reflexivity.
  Qed.
  Definition pair_before (x y : (nat * annotation) * (nat * annotation)) : Prop :=
    fst (fst x) < fst (fst y) \/ (fst (fst x) = fst (fst y) /\ fst (snd x) < fst (snd y)).
  Lemma pairs_n_sorted : StronglySorted pair_before pairs_n.
  Proof.
    unfold pairs_n. apply (sorted_concat_map _ earlier); [apply numbered_sorted| |].
    - intros ga _. apply (sorted_concat_map _ earlier); [apply numbered_sorted| |].
      + intros pa _. destruct (Q ga pa); repeat constructor.
      + intros pa pb _ _ Hab x y Hx Hy. destruct (Q ga pa); [|destruct Hx]. destruct (Q ga pb); [|destruct Hy].
        destruct Hx as [<-|[]], Hy as [<-|[]]. right. cbn. auto.
    - intros ga gb _ _ Hab x y Hx Hy. apply in_flat_map in Hx, Hy. destruct Hx as (pa & _ & Hx), Hy as (pb & _ & Hy).
      destruct (Q ga pa); [|destruct Hx]. destruct (Q gb pb); [|destruct Hy]. destruct Hx as [<-|[]], Hy as [<-|[]]. left. exact Hab.
  Qed.
  Lemma pairs_n_map : flat_map (fun ga => flat_map (fun pa => if Q ga pa then [(snd ga, snd pa)] else []) (numbered (t_pds d))) (numbered (t_gts d))
    = map (fun x => (snd (fst x), snd (snd x))) pairs_n.
  Proof.
    unfold pairs_n. rewrite map_flat_map. apply flat_map_in. intros ga _. rewrite map_flat_map. apply flat_map_in. intros pa _. destruct (Q ga pa); reflexivity.
  Qed.
End Pairs.

Section Lists.
  Variables (eps : Z) (ds : list detection) (L : list String.string) (G P : nat -> nat -> Z).
  Hypothesis Hid : ids_increase ds G P.
  Hypothesis Hdis : Forall distinct_pd_labels ds.
  Hypothesis Hlen : forall d pa, In d ds -> In pa (t_pds d) -> length (a_labels pa) = length (a_scores pa).
  Hypothesis Hone : forall d ga, In d ds -> In ga (t_gts d) -> exists gl, a_labels ga = [gl].
  Hypothesis Hsmall : small_labels L.
  Variables (on : nat -> bool) (tb : list drow).
  Hypothesis Hpic : pictured eps ds L G P on tb.
  Variables (t s : Z).

  Local Notation gt_row := (gt_row ds L G).
  Local Notation pd_row := (pd_row ds L P).
  Local Notation thr := (thresholded eps t s tb).
  Local Notation ok := (pic_conf_ok eps ds L G P Hid Hdis on tb Hpic).
  Definition shown : list (nat * detection) := filter (fun x => on (fst x)) (numbered ds).
  Lemma shown_In i d : In (i, d) shown <-> on i = true /\ nth_error ds i = Some d.
  Proof. unfold shown. rewrite filter_In, numbered_In. cbn. tauto. Qed.
  Lemma shown_sorted : StronglySorted earlier shown.
  Proof. apply StronglySorted_filter, numbered_sorted. Qed.

  Lemma thr_iff r : In r tb -> thr r = true <->
    exists i d g p v sc, on i = true /\ nth_error ds i = Some d /\ gt_row i g r /\ pd_row i p v sc r /\ matching eps d p g = true /\ reaches eps t s d p g sc = true.
  Proof.
    intros Hr. rewrite (thr_spec eps t s tb ok r Hr). split.
    - intros (H & Hi & Hs). assert (H' := H). apply greedy_In in H'. destruct H' as (_ & [V1 V2] & _). cbn in V1, V2.
      destruct (row_both eps ds L G P on tb Hpic r Hr V1 V2) as (i & d & g & p & v & sc & O & D & A & B & Ho & Io). exists i, d, g, p, v, sc.
      split; [exact O|]. split; [exact D|]. split; [exact A|]. split; [exact B|].
      destruct (gt_row_in ds L G _ _ _ A) as (e & E1 & E2 & E3 & _). assert (e = d) by congruence. subst e.
      destruct (pd_row_in ds L P _ _ _ _ _ B) as (e & F1 & F2 & F3 & _). assert (e = d) by congruence. subst e.
      split; [apply (choice_is_matching eps ds L G P Hid Hdis on tb Hpic Hlen i d p g O D F2 E2); unfold pair_ids in H; rewrite E3, F3 in H; exact H|].
      destruct B as (_ & _ & _ & _ & _ & _ & _ & _ & _ & _ & _ & _ & S). unfold m_iou, m_sc, reaches in *. rewrite Io in Hi. rewrite S in Hs.
      rewrite !andb_true_iff in *. tauto.
    - intros (i & d & g & p & v & sc & O & D & A & B & M & R). destruct (gt_row_in ds L G _ _ _ A) as (e & E1 & E2 & E3 & _). assert (e = d) by congruence. subst e.
      destruct (pd_row_in ds L P _ _ _ _ _ B) as (e & F1 & F2 & F3 & _). assert (e = d) by congruence. subst e.
      apply (choice_is_matching eps ds L G P Hid Hdis on tb Hpic Hlen i d p g O D F2 E2) in M. unfold pair_ids. rewrite E3, F3. split; [exact M|].
      destruct (row_pair eps ds L G P Hid on tb Hpic r i g p v sc Hr A B) as (e & _ & De & _ & Io). assert (e = d) by congruence. subst e.
      destruct B as (_ & _ & _ & _ & _ & _ & _ & _ & _ & _ & _ & _ & S). unfold m_iou, m_sc, reaches in *. rewrite Io, S. rewrite !andb_true_iff in *. tauto.
  Qed.

  (* a matched pair that reaches the thresholds has its row *)
  Lemma matched_row i d g ga p pa (okl : String.string -> bool) : on i = true -> nth_error ds i = Some d -> nth_error (t_gts d) g = Some ga -> nth_error (t_pds d) p = Some pa ->
    matched_by eps t s d okl (g, ga) (p, pa) = true ->
    exists r v sc, In r tb /\ thr r = true /\ gt_row i g r /\ pd_row i p v sc r /\ okl v = true.
  Proof.
    intros O D Hg Hp H. unfold matched_by in H. cbn [fst snd] in H. apply andb_true_iff in H. destruct H as [M H]. apply existsb_exists in H.
    destruct H as ([v sc] & Hv & H). cbn [fst snd] in H. apply andb_true_iff in H. destruct H as [Hl R].
    assert (C := it_pairs _ _ _ (matching_in_turn eps d) p g M). apply candidate_iff in C. destruct C as (pa' & Hp' & _ & Hg' & Ho).
    destruct (pic_pair _ _ _ _ _ _ _ Hpic i d g p pa v sc O D Hg' Hp Hv Ho) as (r & Hr & A & B). exists r, v, sc. split; [exact Hr|]. split; [|auto].
    apply (thr_iff r Hr). exists i, d, g, p, v, sc. auto 8.
  Qed.
  Lemma row_matched r : In r tb -> thr r = true -> exists i d g ga p pa v sc, on i = true /\ nth_error ds i = Some d /\ nth_error (t_gts d) g = Some ga /\
    nth_error (t_pds d) p = Some pa /\ gt_row i g r /\ pd_row i p v sc r /\
    matching eps d p g = true /\ In (v, sc) (scored_labels pa) /\ reaches eps t s d p g sc = true.
  Proof.
    intros Hr H. apply (thr_iff r Hr) in H. destruct H as (i & d & g & p & v & sc & O & D & A & B & M & R).
    assert (A' := A). destruct A' as (e & ga & gl & gi & A1 & A2 & _). assert (e = d) by congruence. subst e.
    assert (B' := B). destruct B' as (e & pa & pi & B1 & B2 & B3 & _). assert (e = d) by congruence. subst e.
    exists i, d, g, ga, p, pa, v, sc. auto 12.
  Qed.

  Lemma gt_covered r i d g ga : on i = true -> nth_error ds i = Some d -> nth_error (t_gts d) g = Some ga -> gt_row i g r ->
    (exists x, In x tb /\ thr x = true /\ d_datum x = d_datum r /\ d_gt x = d_gt r) <-> gt_matched eps t s d (g, ga) = true.
  Proof.
    intros O D Hg A. unfold gt_matched. rewrite existsb_exists. split.
    - intros (x & Hx & Tx & _ & E). destruct (row_matched x Hx Tx) as (j & e & h & gb & p & pa & v & sc & _ & D' & Hh & Hp & A' & _ & M & Hv & R).
      destruct (gt_row_id ds L G P Hid _ _ _ _ _ _ A' A E) as [-> ->]. assert (e = d) by congruence. subst e. assert (gb = ga) by congruence. subst gb.
      exists (p, pa). split; [apply numbered_In; exact Hp|]. unfold matched_by, any_label. cbn [fst snd]. rewrite M. cbn [andb]. apply existsb_exists. exists (v, sc). auto.
    - intros ([p pa] & Hp & H). apply numbered_In in Hp. destruct (matched_row i d g ga p pa _ O D Hg Hp H) as (x & v & sc & Hx & Tx & A' & _).
      destruct (gt_row_in ds L G _ _ _ A) as (_ & _ & _ & E1 & E2). destruct (gt_row_in ds L G _ _ _ A') as (_ & _ & _ & F1 & F2).
      exists x. split; [exact Hx|]. split; [exact Tx|]. split; congruence.
  Qed.
  Lemma pd_covered r i d p pa v sc : on i = true -> nth_error ds i = Some d -> nth_error (t_pds d) p = Some pa -> pd_row i p v sc r ->
    (exists x, In x tb /\ thr x = true /\ d_datum x = d_datum r /\ d_pd x = d_pd r) <-> pd_matched eps t s d (p, pa) = true.
  Proof.
    intros O D Hp B. unfold pd_matched. rewrite existsb_exists. split.
    - intros (x & Hx & Tx & _ & E). destruct (row_matched x Hx Tx) as (j & e & g & ga & q & qa & v' & sc' & _ & D' & Hg & Hq & _ & B' & M & Hv & R).
      destruct (pd_row_id ds L G P Hid _ _ _ _ _ _ _ _ _ _ B' B E) as [-> ->]. assert (e = d) by congruence. subst e. assert (qa = pa) by congruence. subst qa.
      exists (g, ga). split; [apply numbered_In; exact Hg|]. unfold matched_by, any_label. cbn [fst snd]. rewrite M. cbn [andb]. apply existsb_exists. exists (v', sc'). auto.
    - intros ([g ga] & Hg & H). apply numbered_In in Hg. destruct (matched_row i d g ga p pa _ O D Hg Hp H) as (x & v' & sc' & Hx & Tx & _ & B' & _).
      destruct (pd_row_in ds L P _ _ _ _ _ B) as (_ & _ & _ & E1 & E2). destruct (pd_row_in ds L P _ _ _ _ _ B') as (_ & _ & _ & F1 & F2).
      exists x. split; [exact Hx|]. split; [exact Tx|]. split; congruence.
  Qed.
  Lemma lone_gt_row r i d g ga : In r tb -> on i = true -> nth_error ds i = Some d -> nth_error (t_gts d) g = Some ga -> gt_row i g r ->
    dp_unmatched_gt eps t s tb r = negb (gt_matched eps t s d (g, ga)).
  Proof.
    intros Hr O D Hg A. unfold dp_unmatched_gt, gt_exists. assert (X := gt_row_ok ds L G P Hid _ _ _ A). unfold id_ok in X.
    replace (0 <=? d_gt r)%Z with true by (symmetry; apply Z.leb_le; lia). rewrite andb_true_r. f_equal. apply eq_true_iff_eq.
    rewrite (isin_gt eps t s tb ok r Hr). apply (gt_covered r i d g ga); assumption.
  Qed.
  Lemma lone_pd_row r i d p pa v sc : In r tb -> on i = true -> nth_error ds i = Some d -> nth_error (t_pds d) p = Some pa -> pd_row i p v sc r ->
    dp_unmatched_pd eps t s tb r = passes eps s sc && negb (pd_matched eps t s d (p, pa)).
  Proof.
    intros Hr O D Hp B. unfold dp_unmatched_pd, pd_exists. assert (X := pd_row_ok ds L G P Hid _ _ _ _ _ B). unfold id_ok in X.
    replace (0 <=? d_pd r)%Z with true by (symmetry; apply Z.leb_le; lia). rewrite andb_true_r, andb_comm. f_equal.
    - unfold m_sc, passes. destruct B as (_ & _ & _ & _ & _ & _ & _ & _ & _ & _ & _ & _ & S). rewrite S. reflexivity.
    - f_equal. apply eq_true_iff_eq. rewrite (isin_pd eps t s tb ok r Hr). apply (pd_covered r i d p pa v sc); assumption.
  Qed.
  Lemma same_label_row r i d g ga gl p v sc : In r tb -> gt_row i g r -> pd_row i p v sc r -> nth_error ds i = Some d -> nth_error (t_gts d) g = Some ga -> a_labels ga = [gl] ->
    label_match r = String.eqb gl v.
  Proof.
    intros Hr A B D Hg Hl. destruct (gt_row_label ds L G _ _ _ _ _ _ A D Hg Hl) as [X1 X2].
    destruct B as (_ & _ & pi & _ & _ & _ & Y & _ & _ & _ & _ & E & _).
    assert (S1 := Hsmall _ _ X1). assert (S2 := Hsmall _ _ Y). rewrite label_match_small by lia. rewrite E.
    destruct (String.eqb_spec gl v) as [->|N]; [apply Z.eqb_eq; assert (pi = Z.to_nat (d_gl r)) by congruence; lia|].
    apply Z.eqb_neq. intros E'. apply N. apply (index_of_inj gl v L pi); [|exact Y]. rewrite X1. f_equal. lia.
  Qed.

  (* -------------------------------------------------------------- the uids *)
  Lemma find_value {A B} (f : A -> bool) (h : A -> B) (l : list A) y : (exists x, In x l /\ f x = true) -> (forall x, In x l -> f x = true -> h x = y) ->
    option_map h (find f l) = Some y.
  Proof.
    intros (x & Hx & Fx) H. destruct (find f l) as [z|] eqn:E; [|rewrite (find_none _ _ E x Hx) in Fx; discriminate].
    apply find_some in E. cbn. f_equal. apply H; tauto.
  Qed.
  Lemma datum_uid_of r : In r tb -> det_datum_uid tb (d_datum r) = Some (d_uid r).
  Proof.
    intros Hr. destruct (row_datum eps ds L G P on tb Hpic r Hr) as (i & d & _ & D & E & U). unfold det_datum_uid.
    replace (0 <=? d_datum r)%Z with true by (symmetry; apply Z.leb_le; lia). apply find_value; [exists r; split; [exact Hr|apply Z.eqb_refl]|].
    intros x Hx Ex. apply Z.eqb_eq in Ex. destruct (row_datum eps ds L G P on tb Hpic x Hx) as (j & d' & _ & D' & E' & U').
    assert (i = j) by lia. subst j. congruence.
  Qed.
  Lemma gt_uid_of i d g ga r : In r tb -> gt_row i g r -> nth_error ds i = Some d -> nth_error (t_gts d) g = Some ga -> det_gt_uid tb (G i g) = Some (Some (a_uid ga)).
  Proof.
    intros Hr A D Hg. assert (Hg' : g < length (t_gts d)) by (apply nth_error_Some; congruence). assert (X := inc_gt _ _ _ Hid i d g D Hg'). unfold id_ok in X.
    destruct (gt_row_in ds L G _ _ _ A) as (_ & _ & _ & E & _). unfold det_gt_uid.
    replace (0 <=? G i g)%Z with true by (symmetry; apply Z.leb_le; lia). apply find_value; [exists r; split; [exact Hr|apply Z.eqb_eq; exact E]|].
    intros x Hx Ex. apply Z.eqb_eq in Ex. destruct (row_gt eps ds L G P on tb Hpic x Hx ltac:(lia)) as (j & h & _ & A').
    destruct (gt_row_id ds L G P Hid _ _ _ _ _ _ A' A ltac:(congruence)) as [-> ->]. destruct A' as (e & gb & _ & _ & D1 & D2 & _ & _ & _ & _ & U & _). congruence.
  Qed.
  Lemma pd_uid_of i d p pa r v sc : In r tb -> pd_row i p v sc r -> nth_error ds i = Some d -> nth_error (t_pds d) p = Some pa -> det_pd_uid tb (P i p) = Some (Some (a_uid pa)).
  Proof.
    intros Hr B D Hp. assert (Hp' : p < length (t_pds d)) by (apply nth_error_Some; congruence). assert (X := inc_pd _ _ _ Hid i d p D Hp'). unfold id_ok in X.
    destruct (pd_row_in ds L P _ _ _ _ _ B) as (_ & _ & _ & E & _). unfold det_pd_uid.
    replace (0 <=? P i p)%Z with true by (symmetry; apply Z.leb_le; lia). apply find_value; [exists r; split; [exact Hr|apply Z.eqb_eq; exact E]|].
    intros x Hx Ex. apply Z.eqb_eq in Ex. destruct (row_pd eps ds L G P on tb Hpic x Hx ltac:(lia)) as (j & q & w & sw & _ & B').
    destruct (pd_row_id ds L G P Hid _ _ _ _ _ _ _ _ _ _ B' B ltac:(congruence)) as [-> ->]. destruct B' as (e & qa & _ & D1 & D2 & _ & _ & _ & _ & U & _). congruence.
  Qed.

  Lemma datum_uid_on i d r : In r tb -> d_datum r = Z.of_nat i -> nth_error ds i = Some d -> det_datum_uid tb (Z.of_nat i) = Some (t_uid d).
  Proof.
    intros Hr E D. rewrite <- E, (datum_uid_of r Hr). destruct (row_datum eps ds L G P on tb Hpic r Hr) as (j & e & _ & D' & E' & U).
    assert (j = i) by lia. subst j. congruence.
  Qed.

  (* ------------------------------------------------- lists of keys in order *)
  Section Keys.
    Variable sel : list (nat * detection).
    Hypothesis Hsorted : StronglySorted earlier sel.
    Hypothesis Hincl : forall i d, In (i, d) sel -> nth_error ds i = Some d.

    Lemma pair_keys (Q : detection -> nat * annotation -> nat * annotation -> bool) (lg lp : (nat * annotation) * (nat * annotation) -> Z)
        (K : list (Z * Z * Z * Z * Z)) : StronglySorted (strictly z5_leb) K ->
      (forall k, In k K <-> exists i d g ga p pa, In (i, d) sel /\ nth_error (t_gts d) g = Some ga /\ nth_error (t_pds d) p = Some pa /\ Q d (g, ga) (p, pa) = true /\
         k = (Z.of_nat i, G i g, P i p, lg ((g, ga), (p, pa)), lp ((g, ga), (p, pa)))) ->
      K = flat_map (fun x => map (fun y => (Z.of_nat (fst x), G (fst x) (fst (fst y)), P (fst x) (fst (snd y)), lg y, lp y)) (pairs_n (snd x) (Q (snd x)))) sel.
    Proof.
      intros HK HI. apply (sorted_same (strictly z5_leb) (strictly_asym _ z5_leb_antisym)); [exact HK| |].
      - apply (sorted_concat_map _ earlier); [exact Hsorted| |].
        + intros [i d] Hid'. assert (D := Hincl i d Hid'). apply (sorted_map_in pair_before); [apply pairs_n_sorted|].
          intros [[g ga] [p pa]] [[h gb] [q pb]] Ha Hb Hab. apply pairs_n_In in Ha, Hb. destruct Ha as (Ha & Hp & _), Hb as (Hb & Hq & _). cbn [fst snd] in *.
          assert (g < length (t_gts d)) by (apply nth_error_Some; congruence). assert (h < length (t_gts d)) by (apply nth_error_Some; congruence).
          assert (p < length (t_pds d)) by (apply nth_error_Some; congruence). assert (q < length (t_pds d)) by (apply nth_error_Some; congruence).
          apply z5_lt. right. split; [reflexivity|]. unfold pair_before in Hab. cbn [fst snd] in Hab. destruct Hab as [Hab|[-> Hab]].
          * left. apply (inc_gt_lt _ _ _ Hid i d g i d h); auto.
          * right. split; [reflexivity|]. apply (inc_pd_lt _ _ _ Hid i d p i d q); auto.
        + intros [i d] [j e] _ _ Hij x y Hx Hy. apply in_map_iff in Hx, Hy. destruct Hx as (a & <- & _), Hy as (b & <- & _). apply z5_lt. left. unfold earlier in Hij. cbn in *. lia.
      - intros k. rewrite HI, in_flat_map. split.
        + intros (i & d & g & ga & p & pa & Hs & Hg & Hp & HQ & ->). exists (i, d). split; [exact Hs|]. apply in_map_iff. exists ((g, ga), (p, pa)).
          split; [reflexivity|]. apply pairs_n_In. auto.
        + intros ([i d] & Hs & H). apply in_map_iff in H. destruct H as ([[g ga] [p pa]] & <- & H). apply pairs_n_In in H. destruct H as (Hg & Hp & HQ).
          exists i, d, g, ga, p, pa. auto 8.
    Qed.

    Section Single.
      Variables (ann : detection -> list annotation) (I : nat -> nat -> Z).
      Hypothesis Hinc : forall i d g h, nth_error ds i = Some d -> g < length (ann d) -> h < length (ann d) -> g < h -> (I i g < I i h)%Z.

      Lemma single_keys (Q : detection -> nat * annotation -> bool) (lab : nat * annotation -> Z) (K : list (Z * Z * Z)) : StronglySorted (strictly zzz_leb) K ->
        (forall k, In k K <-> exists i d g ga, In (i, d) sel /\ nth_error (ann d) g = Some ga /\ Q d (g, ga) = true /\ k = (Z.of_nat i, I i g, lab (g, ga))) ->
        K = flat_map (fun x => map (fun y => (Z.of_nat (fst x), I (fst x) (fst y), lab y)) (filter (Q (snd x)) (numbered (ann (snd x))))) sel.
      Proof.
        intros HK HI. apply (sorted_same (strictly zzz_leb) (strictly_asym _ zzz_leb_antisym)); [exact HK| |].
        - apply (sorted_concat_map _ earlier); [exact Hsorted| |].
          + intros [i d] Hid'. assert (D := Hincl i d Hid'). apply (sorted_map_in earlier); [apply StronglySorted_filter, numbered_sorted|].
            intros [g ga] [h gb] Ha Hb Hab. apply filter_In in Ha, Hb. destruct Ha as [Ha _], Hb as [Hb _]. apply numbered_In in Ha, Hb. cbn [fst snd] in *.
            assert (g < length (ann d)) by (apply nth_error_Some; congruence). assert (h < length (ann d)) by (apply nth_error_Some; congruence).
            apply zzz_lt. right. split; [reflexivity|]. left. apply (Hinc i d); auto.
          + intros [i d] [j e] _ _ Hij x y Hx Hy. apply in_map_iff in Hx, Hy. destruct Hx as (a & <- & _), Hy as (b & <- & _). apply zzz_lt. left. unfold earlier in Hij. cbn in *. lia.
        - intros k. rewrite HI, in_flat_map. split.
          + intros (i & d & g & ga & Hs & Hg & HQ & ->). exists (i, d). split; [exact Hs|]. apply in_map_iff. exists (g, ga). split; [reflexivity|].
            apply filter_In. split; [apply numbered_In; exact Hg|exact HQ].
          + intros ([i d] & Hs & H). apply in_map_iff in H. destruct H as ([g ga] & <- & H). apply filter_In in H. destruct H as [H HQ]. apply numbered_In in H.
            exists i, d, g, ga. auto 8.
      Qed.

      (* several keys for one annotation, in the order of their labels *)
      Lemma several_keys (labs : detection -> nat * annotation -> list Z) (K : list (Z * Z * Z)) : StronglySorted (strictly zzz_leb) K ->
        (forall i d g ga, In (i, d) sel -> nth_error (ann d) g = Some ga -> NoDup (labs d (g, ga))) ->
        (forall k, In k K <-> exists i d g ga l, In (i, d) sel /\ nth_error (ann d) g = Some ga /\ In l (labs d (g, ga)) /\ k = (Z.of_nat i, I i g, l)) ->
        K = flat_map (fun x => flat_map (fun y => map (fun l => (Z.of_nat (fst x), I (fst x) (fst y), l)) (isort Z.leb (labs (snd x) y))) (numbered (ann (snd x)))) sel.
      Proof.
        intros HK HN HI. apply (sorted_same (strictly zzz_leb) (strictly_asym _ zzz_leb_antisym)); [exact HK| |].
        - apply (sorted_concat_map _ earlier); [exact Hsorted| |].
          + intros [i d] Hid'. assert (D := Hincl i d Hid'). apply (sorted_concat_map _ earlier); [apply numbered_sorted| |].
            * intros [g ga] Hg. apply numbered_In in Hg. cbn [fst snd]. apply (sorted_map_in (strictly Z.leb)).
              { apply isort_strictly; [intros a b; lia|intros a b c; lia|]. apply (HN i d g ga); assumption. }
              intros a b _ _ [Hab Ne]. apply zzz_lt. lia.
            * intros [g ga] [h gb] Ha Hb Hab x y Hx Hy. apply numbered_In in Ha, Hb. cbn [fst snd] in *. apply in_map_iff in Hx, Hy. destruct Hx as (a & <- & _), Hy as (b & <- & _).
              assert (g < length (ann d)) by (apply nth_error_Some; congruence). assert (h < length (ann d)) by (apply nth_error_Some; congruence).
              apply zzz_lt. right. split; [reflexivity|]. left. apply (Hinc i d); auto.
          + intros [i d] [j e] _ _ Hij x y Hx Hy. apply in_flat_map in Hx, Hy. destruct Hx as (a & _ & Hx), Hy as (b & _ & Hy). apply in_map_iff in Hx, Hy.
            destruct Hx as (l & <- & _), Hy as (l' & <- & _). apply zzz_lt. left. unfold earlier in Hij. cbn in *. lia.
        - intros k. rewrite HI, in_flat_map. split.
          + intros (i & d & g & ga & l & Hs & Hg & Hl & ->). exists (i, d). split; [exact Hs|]. apply in_flat_map. exists (g, ga). split; [apply numbered_In; exact Hg|].
            apply in_map_iff. exists l. split; [reflexivity|]. eapply Permutation_in; [apply isort_perm|exact Hl].
          + intros ([i d] & Hs & H). apply in_flat_map in H. destruct H as ([g ga] & Hg & H). apply numbered_In in Hg. apply in_map_iff in H. destruct H as (l & <- & Hl).
            exists i, d, g, ga, l. split; [exact Hs|]. split; [exact Hg|]. split; [|reflexivity]. eapply Permutation_in; [symmetry; apply isort_perm|exact Hl].
      Qed.
    End Single.
  End Keys.

  Definition labno (v : String.string) : Z := match index_of v L with Some n => Z.of_nat n | None => (-1)%Z end.
  Definition gt_labno (a : annotation) : Z := match a_labels a with gl :: _ => labno gl | [] => (-1)%Z end.
  Lemma labno_inj v w : index_of v L <> None -> labno v = labno w -> v = w.
  Proof.
    unfold labno. destruct (index_of v L) as [n|] eqn:E; [|congruence]. intros _. destruct (index_of w L) as [m|] eqn:E'; [|lia].
    intros H. apply (index_of_inj v w L n E). replace n with m by lia. exact E'.
  Qed.
  Lemma gt_row_labno i g r d ga : gt_row i g r -> nth_error ds i = Some d -> nth_error (t_gts d) g = Some ga -> d_gl r = gt_labno ga.
  Proof.
    intros (e & gb & gl & gi & A & B & C & E & _ & _ & _ & _ & F) D Hg. assert (e = d) by congruence. subst e. assert (gb = ga) by congruence. subst gb.
    unfold gt_labno, labno. rewrite C, E. exact F.
  Qed.
  Lemma pd_row_labno i p v sc r : pd_row i p v sc r -> d_pl r = labno v /\ index_of v L <> None.
  Proof. intros (e & pa & pi & _ & _ & _ & E & _ & _ & _ & _ & F & _). unfold labno. rewrite E. split; [exact F|discriminate]. Qed.
  Lemma has_label_one ga gl v : a_labels ga = [gl] -> has_label v ga = String.eqb v gl.
  Proof. intros H. unfold has_label. rewrite H. cbn. apply orb_false_r. Qed.
  Lemma unique_strict5 (Pr : drow -> bool) : StronglySorted (strictly z5_leb) (isort z5_leb (dkeys z5_dec row_ids Pr tb)).
  Proof. apply isort_strictly; [apply z5_leb_total|apply z5_leb_trans|apply dkeys_NoDup]. Qed.
  Lemma unique_strict3 (key : drow -> Z * Z * Z) (Pr : drow -> bool) : StronglySorted (strictly zzz_leb) (isort zzz_leb (dkeys zzz_dec key Pr tb)).
  Proof. apply isort_strictly; [apply zzz_leb_total|apply zzz_leb_trans|apply dkeys_NoDup]. Qed.
  Lemma isort_dkeys_In {K} (dec : forall x y : K, {x = y} + {x <> y}) leb (key : drow -> K) Pr k : In k (isort leb (dkeys dec key Pr tb)) <-> exists r, In r tb /\ Pr r = true /\ key r = k.
  Proof.
    rewrite <- dkeys_In. split; apply Permutation_in; [symmetry|]; apply isort_perm.
  Qed.
  Lemma inc_gts i d g h : nth_error ds i = Some d -> g < length (t_gts d) -> h < length (t_gts d) -> g < h -> (G i g < G i h)%Z.
  Proof. intros D Hg Hh Hgh. apply (inc_gt_lt _ _ _ Hid i d g i d h); auto. Qed.
  Lemma inc_pds i d g h : nth_error ds i = Some d -> g < length (t_pds d) -> h < length (t_pds d) -> g < h -> (P i g < P i h)%Z.
  Proof. intros D Hg Hh Hgh. apply (inc_pd_lt _ _ _ Hid i d g i d h); auto. Qed.
  Lemma shown_nth i d : In (i, d) shown -> nth_error ds i = Some d.
  Proof. intros H. apply shown_In in H. tauto. Qed.

  (* ------------------------------------------------------ confusion matrix *)
  Section Cell.
    Variables (gl pl : String.string) (gi pi : nat).
    Hypothesis Hgl : index_of gl L = Some gi.
    Hypothesis Hpl : index_of pl L = Some pi.

    Lemma labno_is v n : index_of v L = Some n -> labno v = Z.of_nat n.
    Proof. intros H. unfold labno. rewrite H. reflexivity. Qed.

    Lemma cell_list : det_cell_examples eps t s tb (Z.of_nat gi) (Z.of_nat pi)
      = flat_map (fun x => map (fun y => (Some (t_uid (snd x)), Some (Some (a_uid (fst y))), Some (Some (a_uid (snd y))))) (cell_pairs eps t s (snd x) gl pl)) shown.
    Proof.
      set (Q := fun d (ga pa : nat * annotation) => has_label gl (snd ga) && matched_by eps t s d (String.eqb pl) ga pa).
      unfold det_cell_examples.
      match goal with |- map _ ?K = _ => rewrite (pair_keys shown shown_sorted shown_nth Q (fun _ => Z.of_nat gi) (fun _ => Z.of_nat pi) K) end.
      - rewrite map_flat_map. apply flat_map_in. intros [i d] Hs. apply shown_In in Hs. destruct Hs as [O D]. cbn [fst snd].
        unfold cell_pairs. rewrite (pairs_n_map d (fun ga pa => has_label gl (snd ga) && matched_by eps t s d (String.eqb pl) ga pa)).
        rewrite !map_map. apply map_ext_in. intros [[g ga] [p pa]] Hy. apply pairs_n_In in Hy. destruct Hy as (Hg & Hp & HQ). cbn [fst snd].
        unfold Q in HQ. apply andb_true_iff in HQ. destruct HQ as [_ HM]. destruct (matched_row i d g ga p pa _ O D Hg Hp HM) as (r & v & sc & Hr & _ & A & B & _).
        destruct (gt_row_in ds L G _ _ _ A) as (_ & _ & _ & _ & E). cbn [fst snd] in *.
        rewrite (datum_uid_on i d r Hr E D), (gt_uid_of i d g ga r Hr A D Hg), (pd_uid_of i d p pa r v sc Hr B D Hp). reflexivity.
      - apply StronglySorted_filter, unique_strict5.
      - intros k. rewrite filter_In. unfold unique_pairs. rewrite isort_dkeys_In. split.
        + intros [(r & Hr & Hm & <-) E]. rewrite matched_thr in Hm. unfold row_ids in E. cbn [fst snd] in E. rewrite andb_true_iff, !Z.eqb_eq in E. destruct E as [E1 E2].
          destruct (row_matched r Hr Hm) as (i & d & g & ga & p & pa & v & sc & O & D & Hg & Hp & A & B & M & Hv & R).
          exists i, d, g, ga, p, pa. split; [apply shown_In; auto|]. split; [exact Hg|]. split; [exact Hp|].
          destruct (gt_row_in ds L G _ _ _ A) as (_ & _ & _ & A1 & A2). destruct (pd_row_in ds L P _ _ _ _ _ B) as (_ & _ & _ & B1 & _).
          split; [|unfold row_ids; congruence].
          destruct (pd_row_labno _ _ _ _ _ B) as [F1 F2]. assert (v = pl). { apply labno_inj; [exact F2|]. rewrite (labno_is pl pi Hpl). congruence. } subst v.
          destruct (Hone d ga (nth_error_In _ _ D) (nth_error_In _ _ Hg)) as (l & Hl).
          destruct (gt_row_label ds L G _ _ _ _ _ _ A D Hg Hl) as [X1 X2]. assert (l = gl) by (apply (index_of_inj l gl L gi); [rewrite X1; f_equal; lia|exact Hgl]). subst l.
          unfold Q, matched_by. cbn [fst snd]. rewrite (has_label_one ga gl gl Hl), String.eqb_refl, M. cbn [andb]. apply existsb_exists. exists (pl, sc).
          split; [exact Hv|]. cbn. rewrite String.eqb_refl. exact R.
        + intros (i & d & g & ga & p & pa & Hs & Hg & Hp & HQ & ->). apply shown_In in Hs. destruct Hs as [O D].
          unfold Q in HQ. cbn [fst snd] in HQ. apply andb_true_iff in HQ. destruct HQ as [HL HM].
          destruct (matched_row i d g ga p pa _ O D Hg Hp HM) as (r & v & sc & Hr & Tr & A & B & Ev). apply String.eqb_eq in Ev. subst v.
          destruct (gt_row_in ds L G _ _ _ A) as (_ & _ & _ & A1 & A2). destruct (pd_row_in ds L P _ _ _ _ _ B) as (_ & _ & _ & B1 & _).
          destruct (pd_row_labno _ _ _ _ _ B) as [F1 _]. rewrite (labno_is pl pi Hpl) in F1.
          destruct (Hone d ga (nth_error_In _ _ D) (nth_error_In _ _ Hg)) as (l & Hl). rewrite (has_label_one ga l gl Hl) in HL. apply String.eqb_eq in HL. subst l.
          assert (F2 := gt_row_labno _ _ _ _ _ A D Hg). unfold gt_labno in F2. rewrite Hl, (labno_is gl gi Hgl) in F2.
          split; [|cbn; rewrite !Z.eqb_refl; reflexivity]. exists r. split; [exact Hr|]. rewrite matched_thr. split; [exact Tr|]. unfold row_ids. congruence.
    Qed.

    Lemma lone_gts_list : det_alone_gt_examples eps t s tb (Z.of_nat gi)
      = flat_map (fun x => map (fun a => (Some (t_uid (snd x)), Some (Some (a_uid a)))) (lone_gts eps t s (snd x) gl)) shown.
    Proof.
      set (Q := fun d (ga : nat * annotation) => has_label gl (snd ga) && negb (gt_matched eps t s d ga)).
      unfold det_alone_gt_examples. match goal with |- map _ ?K = _ => rewrite (single_keys shown shown_sorted shown_nth t_gts G inc_gts Q (fun _ => Z.of_nat gi) K) end.
      - rewrite map_flat_map. apply flat_map_in. intros [i d] Hs. apply shown_In in Hs. destruct Hs as [O D]. cbn [fst snd].
        unfold lone_gts. rewrite !map_map. apply map_ext_in. intros [g ga] Hy. apply filter_In in Hy. destruct Hy as [Hg _]. apply numbered_In in Hg. cbn [fst snd].
        assert (Hg' : g < length (t_gts d)) by (apply nth_error_Some; congruence).
        destruct (pic_gt _ _ _ _ _ _ _ Hpic i d g O D Hg') as (r & Hr & A). destruct (gt_row_in ds L G _ _ _ A) as (_ & _ & _ & _ & E).
        rewrite (datum_uid_on i d r Hr E D), (gt_uid_of i d g ga r Hr A D Hg). reflexivity.
      - apply StronglySorted_filter, unique_strict3.
      - intros k. rewrite filter_In. unfold unique_alone_gts. rewrite isort_dkeys_In. split.
        + intros [(r & Hr & Hm & <-) E]. unfold gt_key in E. cbn [snd] in E. apply Z.eqb_eq in E.
          assert (H0 : (0 <= d_gt r)%Z). { unfold dp_unmatched_gt, gt_exists in Hm. apply andb_true_iff in Hm. destruct Hm as [_ Hm]. lia. }
          destruct (row_gt eps ds L G P on tb Hpic r Hr H0) as (i & g & O & A). assert (A' := A). destruct A' as (d & ga & l & ln & D & Hg & Hl & Hn & _ & A2 & _ & A1 & A3).
          rewrite (lone_gt_row r i d g ga Hr O D Hg A) in Hm. exists i, d, g, ga. split; [apply shown_In; auto|]. split; [exact Hg|]. split; [|unfold gt_key; congruence].
          assert (l = gl) by (apply (index_of_inj l gl L gi); [rewrite Hn; f_equal; lia|exact Hgl]). subst l.
          unfold Q. cbn [snd]. rewrite (has_label_one ga gl gl Hl), String.eqb_refl. exact Hm.
        + intros (i & d & g & ga & Hs & Hg & HQ & ->). apply shown_In in Hs. destruct Hs as [O D]. unfold Q in HQ. cbn [snd] in HQ. apply andb_true_iff in HQ. destruct HQ as [HL HM].
          assert (Hg' : g < length (t_gts d)) by (apply nth_error_Some; congruence).
          destruct (pic_gt _ _ _ _ _ _ _ Hpic i d g O D Hg') as (r & Hr & A). destruct (gt_row_in ds L G _ _ _ A) as (_ & _ & _ & A1 & A2).
          destruct (Hone d ga (nth_error_In _ _ D) (nth_error_In _ _ Hg)) as (l & Hl). rewrite (has_label_one ga l gl Hl) in HL. apply String.eqb_eq in HL. subst l.
          assert (F2 := gt_row_labno _ _ _ _ _ A D Hg). unfold gt_labno in F2. rewrite Hl, (labno_is gl gi Hgl) in F2.
          split; [|cbn; apply Z.eqb_refl]. exists r. split; [exact Hr|]. rewrite (lone_gt_row r i d g ga Hr O D Hg A). split; [exact HM|]. unfold gt_key. congruence.
    Qed.

    Lemma lone_pds_list : det_alone_pd_examples eps t s tb (Z.of_nat pi)
      = flat_map (fun x => map (fun a => (Some (t_uid (snd x)), Some (Some (a_uid a)))) (lone_pds eps t s (snd x) pl)) shown.
    Proof.
      set (Q := fun d (pa : nat * annotation) => existsb (fun ls => String.eqb pl (fst ls) && passes eps s (snd ls)) (scored_labels (snd pa)) && negb (pd_matched eps t s d pa)).
      unfold det_alone_pd_examples. match goal with |- map _ ?K = _ => rewrite (single_keys shown shown_sorted shown_nth t_pds P inc_pds Q (fun _ => Z.of_nat pi) K) end.
      - rewrite map_flat_map. apply flat_map_in. intros [i d] Hs. apply shown_In in Hs. destruct Hs as [O D]. cbn [fst snd].
        unfold lone_pds. rewrite !map_map. apply map_ext_in. intros [p pa] Hy. apply filter_In in Hy. destruct Hy as [Hp HQ]. apply numbered_In in Hp. cbn [fst snd].
        cbn [fst snd] in HQ. apply andb_true_iff in HQ. destruct HQ as [HQ _]. apply existsb_exists in HQ. destruct HQ as ([v sc] & Hv & _).
        destruct (pic_pd _ _ _ _ _ _ _ Hpic i d p pa v sc O D Hp Hv) as (r & Hr & B). destruct (pd_row_in ds L P _ _ _ _ _ B) as (_ & _ & _ & _ & E).
        rewrite (datum_uid_on i d r Hr E D), (pd_uid_of i d p pa r v sc Hr B D Hp). reflexivity.
      - apply StronglySorted_filter, unique_strict3.
      - intros k. rewrite filter_In. unfold unique_alone_pds. rewrite isort_dkeys_In. split.
        + intros [(r & Hr & Hm & <-) E]. unfold pd_key in E. cbn [snd] in E. apply Z.eqb_eq in E.
          assert (H0 : (0 <= d_pd r)%Z). { unfold dp_unmatched_pd, pd_exists in Hm. rewrite !andb_true_iff in Hm. lia. }
          destruct (row_pd eps ds L G P on tb Hpic r Hr H0) as (i & p & v & sc & O & B). assert (B' := B). destruct B' as (d & pa & ln & D & Hp & Hv & Hn & _ & B2 & _ & B1 & B3 & _).
          rewrite (lone_pd_row r i d p pa v sc Hr O D Hp B) in Hm. exists i, d, p, pa. split; [apply shown_In; auto|]. split; [exact Hp|]. split; [|unfold pd_key; congruence].
          assert (v = pl) by (apply (index_of_inj v pl L pi); [rewrite Hn; f_equal; lia|exact Hpl]). subst v. apply andb_true_iff in Hm. destruct Hm as [Hm1 Hm2].
          unfold Q. cbn [snd]. rewrite Hm2, andb_true_r. apply existsb_exists. exists (pl, sc). split; [exact Hv|]. cbn. rewrite String.eqb_refl. exact Hm1.
        + intros (i & d & p & pa & Hs & Hp & HQ & ->). apply shown_In in Hs. destruct Hs as [O D]. unfold Q in HQ. cbn [snd] in HQ. apply andb_true_iff in HQ. destruct HQ as [HL HM].
          apply existsb_exists in HL. destruct HL as ([v sc] & Hv & HL). cbn [fst snd] in HL. apply andb_true_iff in HL. destruct HL as [Ev HL]. apply String.eqb_eq in Ev. subst v.
          destruct (pic_pd _ _ _ _ _ _ _ Hpic i d p pa pl sc O D Hp Hv) as (r & Hr & B). destruct (pd_row_in ds L P _ _ _ _ _ B) as (_ & _ & _ & B1 & B2).
          destruct (pd_row_labno _ _ _ _ _ B) as [F1 _]. rewrite (labno_is pl pi Hpl) in F1.
          split; [|cbn; apply Z.eqb_refl]. exists r. split; [exact Hr|]. rewrite (lone_pd_row r i d p pa pl sc Hr O D Hp B), HL, HM. split; [reflexivity|]. unfold pd_key. congruence.
    Qed.
  End Cell.

  (* ------------------------------------------------- the example of an image *)
  Section Example.
    Variables (i : nat) (d : detection).
    Hypothesis O : on i = true.
    Hypothesis D : nth_error ds i = Some d.
    Local Notation sel := [(i, d)].
    Local Notation mine := (fun r : drow => (d_datum r =? Z.of_nat i)%Z).

    Lemma sel_sorted : StronglySorted earlier sel.
    Proof. repeat constructor. Qed.
    Lemma sel_nth j e : In (j, e) sel -> nth_error ds j = Some e.
    Proof. intros [E|[]]. injection E as <- <-. exact D. Qed.
    Lemma mine_nth j (e : detection) r : (d_datum r =? Z.of_nat i)%Z = true -> d_datum r = Z.of_nat j -> nth_error ds j = Some e -> j = i /\ e = d.
    Proof. intros H E H'. apply Z.eqb_eq in H. assert (j = i) by lia. subst j. split; [reflexivity|congruence]. Qed.
    Lemma dp_tp_row r g ga p v sc : In r tb -> gt_row i g r -> pd_row i p v sc r -> nth_error (t_gts d) g = Some ga -> dp_tp eps t s tb r = thr r && has_label v ga.
    Proof.
      intros Hr A B Hg. destruct (Hone d ga (nth_error_In _ _ D) (nth_error_In _ _ Hg)) as (gl & Hl). unfold dp_tp, gt_exists, pd_exists. f_equal.
      assert (X := gt_row_ok ds L G P Hid _ _ _ A). assert (Y := pd_row_ok ds L G P Hid _ _ _ _ _ B). unfold id_ok in *.
      replace (0 <=? d_gt r)%Z with true by (symmetry; apply Z.leb_le; lia). replace (0 <=? d_pd r)%Z with true by (symmetry; apply Z.leb_le; lia). cbn [andb].
      rewrite (same_label_row r i d g ga gl p v sc Hr A B D Hg Hl), (has_label_one ga gl v Hl). apply String.eqb_sym.
    Qed.
    Lemma dp_misclf_row r g ga p v sc : In r tb -> gt_row i g r -> pd_row i p v sc r -> nth_error (t_gts d) g = Some ga -> dp_misclf eps t s tb r = thr r && negb (has_label v ga).
    Proof.
      intros Hr A B Hg. assert (E := dp_tp_row r g ga p v sc Hr A B Hg). unfold dp_tp, dp_misclf in *.
      destruct (thr r); [cbn [andb] in *; congruence|reflexivity].
    Qed.
    Lemma row_matched_here r : In r tb -> thr r = true -> mine r = true -> exists g ga p pa v sc, nth_error (t_gts d) g = Some ga /\
      nth_error (t_pds d) p = Some pa /\ gt_row i g r /\ pd_row i p v sc r /\ matching eps d p g = true /\ In (v, sc) (scored_labels pa) /\ reaches eps t s d p g sc = true.
    Proof.
      intros Hr Hm Hi. destruct (row_matched r Hr Hm) as (j & e & g & ga & p & pa & v & sc & _ & D' & Hg & Hp & A & B & M & Hv & R).
      destruct (gt_row_in ds L G _ _ _ A) as (_ & _ & _ & _ & E). destruct (mine_nth j e r Hi E D') as [-> ->]. exists g, ga, p, pa, v, sc. auto 8.
    Qed.

    Lemma tp_list : map (fun k => let '(_, gt, pd, _, _) := k in (det_gt_uid tb gt, det_pd_uid tb pd))
        (isort z5_leb (dkeys z5_dec row_ids (fun r => dp_tp eps t s tb r && mine r) tb))
      = map (fun y => (Some (Some (a_uid (fst y))), Some (Some (a_uid (snd y))))) (right_pairs eps t s d).
    Proof.
      set (Q := fun d (ga pa : nat * annotation) => matched_by eps t s d (fun l => has_label l (snd ga)) ga pa).
      set (lab := fun y : (nat * annotation) * (nat * annotation) => gt_labno (snd (fst y))).
      cbv beta. match goal with |- map _ ?K = _ => rewrite (pair_keys sel sel_sorted sel_nth Q lab lab K) end.
      - cbn [flat_map fst snd]. rewrite app_nil_r. unfold right_pairs.
        rewrite (pairs_n_map d (fun ga pa => matched_by eps t s d (fun l => has_label l (snd ga)) ga pa)).
        rewrite !map_map. apply map_ext_in. intros [[g ga] [p pa]] Hy. apply pairs_n_In in Hy. destruct Hy as (Hg & Hp & HQ). cbn [fst snd].
        destruct (matched_row i d g ga p pa _ O D Hg Hp HQ) as (r & v & sc & Hr & _ & A & B & _).
        rewrite (gt_uid_of i d g ga r Hr A D Hg), (pd_uid_of i d p pa r v sc Hr B D Hp). reflexivity.
      - apply unique_strict5.
      - intros k. rewrite isort_dkeys_In. split.
        + intros (r & Hr & Hm & <-). apply andb_true_iff in Hm. destruct Hm as [Hm Hi]. assert (Tr : thr r = true) by (apply andb_true_iff in Hm; tauto).
          destruct (row_matched_here r Hr Tr Hi) as (g & ga & p & pa & v & sc & Hg & Hp & A & B & M & Hv & R).
          rewrite (dp_tp_row r g ga p v sc Hr A B Hg), Tr in Hm. cbn [andb] in Hm.
          exists i, d, g, ga, p, pa. split; [left; reflexivity|]. split; [exact Hg|]. split; [exact Hp|].
          destruct (gt_row_in ds L G _ _ _ A) as (_ & _ & _ & A1 & A2). destruct (pd_row_in ds L P _ _ _ _ _ B) as (_ & _ & _ & B1 & _).
          destruct (pd_row_labno _ _ _ _ _ B) as [F1 F2]. assert (F3 := gt_row_labno _ _ _ _ _ A D Hg).
          split.
          * unfold Q, matched_by. cbn [fst snd]. rewrite M. cbn [andb]. apply existsb_exists. exists (v, sc). split; [exact Hv|]. cbn. rewrite Hm. exact R.
          * destruct (Hone d ga (nth_error_In _ _ D) (nth_error_In _ _ Hg)) as (l & Hl). rewrite (has_label_one ga l v Hl) in Hm. apply String.eqb_eq in Hm. subst l.
            unfold row_ids, lab. cbn [fst snd]. assert (gt_labno ga = labno v) by (unfold gt_labno; rewrite Hl; reflexivity). congruence.
        + intros (j & e & g & ga & p & pa & Hs & Hg & Hp & HQ & ->). destruct Hs as [Hs|[]]. injection Hs as <- <-.
          unfold Q in HQ. destruct (matched_row i d g ga p pa _ O D Hg Hp HQ) as (r & v & sc & Hr & Tr & A & B & Ev). cbn [snd] in Ev.
          destruct (gt_row_in ds L G _ _ _ A) as (_ & _ & _ & A1 & A2). destruct (pd_row_in ds L P _ _ _ _ _ B) as (_ & _ & _ & B1 & _).
          destruct (pd_row_labno _ _ _ _ _ B) as [F1 F2]. assert (F3 := gt_row_labno _ _ _ _ _ A D Hg).
          exists r. split; [exact Hr|]. rewrite (dp_tp_row r g ga p v sc Hr A B Hg), Tr, Ev, A2, Z.eqb_refl. split; [reflexivity|].
          destruct (Hone d ga (nth_error_In _ _ D) (nth_error_In _ _ Hg)) as (l & Hl). rewrite (has_label_one ga l v Hl) in Ev. apply String.eqb_eq in Ev. subst l.
          unfold row_ids, lab. cbn [fst snd]. assert (gt_labno ga = labno v) by (unfold gt_labno; rewrite Hl; reflexivity). congruence.
    Qed.

    Lemma fn_list : map (fun k => det_gt_uid tb (snd (fst k)))
        (isort zzz_leb (dkeys zzz_dec gt_key (fun r => (dp_misclf eps t s tb r || dp_unmatched_gt eps t s tb r) && mine r) tb))
      = map (fun a => Some (Some (a_uid a))) (missed_gts eps t s d).
    Proof.
      set (Q := fun d (ga : nat * annotation) => existsb (matched_by eps t s d (fun l => negb (has_label l (snd ga))) ga) (numbered (t_pds d)) || negb (gt_matched eps t s d ga)).
      cbv beta. match goal with |- map _ ?K = _ => rewrite (single_keys sel sel_sorted sel_nth t_gts G inc_gts Q (fun y => gt_labno (snd y)) K) end.
      - cbn [flat_map fst snd]. rewrite app_nil_r. unfold missed_gts. rewrite !map_map. apply map_ext_in. intros [g ga] Hy. apply filter_In in Hy. destruct Hy as [Hg _].
        apply numbered_In in Hg. cbn [fst snd]. assert (Hg' : g < length (t_gts d)) by (apply nth_error_Some; congruence).
        destruct (pic_gt _ _ _ _ _ _ _ Hpic i d g O D Hg') as (r & Hr & A). apply (gt_uid_of i d g ga r Hr A D Hg).
      - apply unique_strict3.
      - intros k. rewrite isort_dkeys_In. split.
        + intros (r & Hr & Hm & <-). apply andb_true_iff in Hm. destruct Hm as [Hm Hi].
          assert (H0 : (0 <= d_gt r)%Z).
          { apply orb_true_iff in Hm. destruct Hm as [Hm|Hm].
            - apply andb_true_iff in Hm. destruct Hm as [Tr _]. apply (thr_valid eps t s tb ok r Hr Tr).
            - unfold dp_unmatched_gt, gt_exists in Hm. apply andb_true_iff in Hm. lia. }
          destruct (row_gt eps ds L G P on tb Hpic r Hr H0) as (j & g & Oj & A). assert (A' := A). destruct A' as (e & ga & l & ln & D' & Hg & Hl & Hn & _ & A2 & _ & A1 & A3).
          destruct (mine_nth j e r Hi A2 D') as [-> ->]. exists i, d, g, ga. split; [left; reflexivity|]. split; [exact Hg|].
          split; [|unfold gt_key; cbn [snd]; rewrite A2, A1, (gt_row_labno _ _ _ _ _ A D Hg); reflexivity].
          rewrite (lone_gt_row r i d g ga Hr O D Hg A) in Hm. unfold Q. apply orb_true_iff in Hm. apply orb_true_iff. destruct Hm as [Hm|Hm]; [left|right; exact Hm].
          assert (Tr : thr r = true) by (apply andb_true_iff in Hm; tauto).
          destruct (row_matched_here r Hr Tr Hi) as (h & gb & p & pa & v & sc & Hh & Hp & Ah & B & M & Hv & R).
          destruct (gt_row_id ds L G P Hid _ _ _ _ _ _ Ah A eq_refl) as [_ ->]. assert (gb = ga) by congruence. subst gb.
          rewrite (dp_misclf_row r g ga p v sc Hr A B Hg), Tr in Hm. cbn [andb] in Hm.
          apply existsb_exists. exists (p, pa). split; [apply numbered_In; exact Hp|]. unfold matched_by. cbn [fst snd]. rewrite M. cbn [andb].
          apply existsb_exists. exists (v, sc). split; [exact Hv|]. cbn [fst snd]. rewrite Hm. exact R.
        + intros (j & e & g & ga & Hs & Hg & HQ & ->). destruct Hs as [Hs|[]]. injection Hs as <- <-. unfold Q in HQ. apply orb_true_iff in HQ. destruct HQ as [HQ|HQ].
          * apply existsb_exists in HQ. destruct HQ as ([p pa] & Hp & HM). apply numbered_In in Hp.
            destruct (matched_row i d g ga p pa _ O D Hg Hp HM) as (r & v & sc & Hr & Tr & A & B & Ev). cbn [snd] in Ev.
            destruct (gt_row_in ds L G _ _ _ A) as (_ & _ & _ & A1 & A2). assert (F3 := gt_row_labno _ _ _ _ _ A D Hg).
            exists r. split; [exact Hr|]. rewrite (dp_misclf_row r g ga p v sc Hr A B Hg), Tr, Ev, A2, Z.eqb_refl. split; [reflexivity|]. unfold gt_key. cbn [snd]. congruence.
          * assert (Hg' : g < length (t_gts d)) by (apply nth_error_Some; congruence).
            destruct (pic_gt _ _ _ _ _ _ _ Hpic i d g O D Hg') as (r & Hr & A). destruct (gt_row_in ds L G _ _ _ A) as (_ & _ & _ & A1 & A2). assert (F3 := gt_row_labno _ _ _ _ _ A D Hg).
            exists r. split; [exact Hr|]. rewrite (lone_gt_row r i d g ga Hr O D Hg A), HQ, orb_true_r, A2, Z.eqb_refl. split; [reflexivity|]. unfold gt_key. cbn [snd]. congruence.
    Qed.

    Lemma labs_NoDup (f : String.string * Z -> bool) p pa : nth_error (t_pds d) p = Some pa -> NoDup (map (fun ls => labno (fst ls)) (filter f (scored_labels pa))).
    Proof.
      intros Hp. rewrite <- (map_map fst labno).
      assert (N : NoDup (map fst (filter f (scored_labels pa)))).
      { apply kept_NoDup. assert (X := proj1 (Forall_forall _ _) Hdis d (nth_error_In _ _ D)). apply X, (nth_error_In _ _ Hp). }
      assert (I : forall v, In v (map fst (filter f (scored_labels pa))) -> index_of v L <> None).
      { intros v Hv. apply in_map_iff in Hv. destruct Hv as ([v' sc] & E & Hv). cbn in E. subst v'. apply filter_In in Hv. destruct Hv as [Hv _].
        destruct (pic_pd _ _ _ _ _ _ _ Hpic i d p pa v sc O D Hp Hv) as (r & Hr & B). apply (pd_row_labno _ _ _ _ _ B). }
      revert N I. generalize (map fst (filter f (scored_labels pa))). induction l as [|v l IH]; intros N I; cbn; [constructor|]. inversion N; subst.
      constructor; [|apply IH; [assumption|intros w Hw; apply I; right; exact Hw]]. intros H. apply in_map_iff in H. destruct H as (w & E & Hw).
      symmetry in E. apply labno_inj in E; [|apply I; left; reflexivity]. subst w. contradiction.
    Qed.

    Lemma fp_list : map (fun k => det_pd_uid tb (snd (fst k)))
        (isort zzz_leb (dkeys zzz_dec pd_key (fun r => (dp_misclf eps t s tb r || dp_unmatched_pd eps t s tb r) && mine r) tb))
      = map (fun a => Some (Some (a_uid a))) (wrong_pds eps t s d).
    Proof.
      set (labs := fun d (pa : nat * annotation) => map (fun ls => labno (fst ls)) (filter (wrong_label eps t s d pa) (scored_labels (snd pa)))).
      cbv beta. match goal with |- map _ ?K = _ => rewrite (several_keys sel sel_sorted sel_nth t_pds P inc_pds labs K) end.
      - cbn [flat_map fst snd]. rewrite app_nil_r. unfold wrong_pds. rewrite !map_flat_map. apply flat_map_in. intros [p pa] Hp. apply numbered_In in Hp. cbn [fst snd].
        rewrite !map_map. cbn [fst snd]. unfold labs. cbn [snd].
        destruct (filter (wrong_label eps t s d (p, pa)) (scored_labels pa)) as [|[v sc] l] eqn:E; [reflexivity|]. rewrite <- E.
        assert (Hv : In (v, sc) (scored_labels pa)) by (apply (filter_In (wrong_label eps t s d (p, pa))); rewrite E; left; reflexivity).
        destruct (pic_pd _ _ _ _ _ _ _ Hpic i d p pa v sc O D Hp Hv) as (r & Hr & B). rewrite (pd_uid_of i d p pa r v sc Hr B D Hp).
        apply map_const_length. rewrite <- (Permutation_length (isort_perm Z.leb _)), map_length. reflexivity.
      - apply unique_strict3.
      - intros j e p pa Hs Hp. destruct Hs as [Hs|[]]. injection Hs as <- <-. apply (labs_NoDup _ p pa Hp).
      - intros k. rewrite isort_dkeys_In. split.
        + intros (r & Hr & Hm & <-). apply andb_true_iff in Hm. destruct Hm as [Hm Hi].
          assert (H0 : (0 <= d_pd r)%Z).
          { apply orb_true_iff in Hm. destruct Hm as [Hm|Hm].
            - apply andb_true_iff in Hm. destruct Hm as [Tr _]. apply (thr_valid eps t s tb ok r Hr Tr).
            - unfold dp_unmatched_pd, pd_exists in Hm. rewrite !andb_true_iff in Hm. lia. }
          destruct (row_pd eps ds L G P on tb Hpic r Hr H0) as (j & p & v & sc & Oj & B). assert (B' := B). destruct B' as (e & pa & ln & D' & Hp & Hv & Hn & _ & B2 & _ & B1 & B3 & _).
          destruct (mine_nth j e r Hi B2 D') as [-> ->]. exists i, d, p, pa, (labno v). split; [left; reflexivity|]. split; [exact Hp|].
          destruct (pd_row_labno _ _ _ _ _ B) as [F1 F2]. split; [|unfold pd_key; congruence].
          unfold labs. apply in_map_iff. exists (v, sc). split; [reflexivity|]. apply filter_In. split; [exact Hv|].
          rewrite (lone_pd_row r i d p pa v sc Hr O D Hp B) in Hm. unfold wrong_label. cbn [fst snd]. apply orb_true_iff in Hm. apply orb_true_iff. destruct Hm as [Hm|Hm]; [left|right; exact Hm].
          assert (Tr : thr r = true) by (apply andb_true_iff in Hm; tauto).
          destruct (row_matched_here r Hr Tr Hi) as (g & ga & q & qa & w & sw & Hg & Hq & A & Bq & M & Hw & R).
          destruct (pd_row_id ds L G P Hid _ _ _ _ _ _ _ _ _ _ Bq B eq_refl) as [_ ->]. assert (qa = pa) by congruence. subst qa.
          assert (w = v) by apply (pd_row_label ds L P _ _ _ _ _ _ _ _ _ _ Bq B eq_refl). subst w.
          assert (sw = sc) by apply (pd_row_score ds L P Hdis _ _ _ _ _ _ _ Bq B). subst sw.
          rewrite (dp_misclf_row r g ga p v sc Hr A B Hg), Tr in Hm. cbn [andb] in Hm.
          apply existsb_exists. exists (g, ga). split; [apply numbered_In; exact Hg|]. cbn [fst snd]. rewrite Hm, M, R. reflexivity.
        + intros (j & e & p & pa & l & Hs & Hp & Hl & ->). destruct Hs as [Hs|[]]. injection Hs as <- <-. unfold labs in Hl. apply in_map_iff in Hl. destruct Hl as ([v sc] & <- & Hl).
          apply filter_In in Hl. cbn [fst snd] in *. destruct Hl as [Hv HQ]. unfold wrong_label in HQ. cbn [fst snd] in HQ. apply orb_true_iff in HQ. destruct HQ as [HQ|HQ].
          * apply existsb_exists in HQ. destruct HQ as ([g ga] & Hg & HM). apply numbered_In in Hg. cbn [fst snd] in HM. rewrite !andb_true_iff in HM. destruct HM as [[HL M] R].
            assert (C := it_pairs _ _ _ (matching_in_turn eps d) p g M). apply candidate_iff in C. destruct C as (pa' & _ & _ & Hg' & Ho).
            destruct (pic_pair _ _ _ _ _ _ _ Hpic i d g p pa v sc O D Hg' Hp Hv Ho) as (r & Hr & A & B).
            assert (Tr : thr r = true) by (apply (thr_iff r Hr); exists i, d, g, p, v, sc; auto 8).
            destruct (pd_row_in ds L P _ _ _ _ _ B) as (_ & _ & _ & B1 & B2). destruct (pd_row_labno _ _ _ _ _ B) as [F1 F2].
            exists r. split; [exact Hr|]. rewrite (dp_misclf_row r g ga p v sc Hr A B Hg), Tr, HL, B2, Z.eqb_refl. split; [reflexivity|]. unfold pd_key. congruence.
          * destruct (pic_pd _ _ _ _ _ _ _ Hpic i d p pa v sc O D Hp Hv) as (r & Hr & B).
            destruct (pd_row_in ds L P _ _ _ _ _ B) as (_ & _ & _ & B1 & B2). destruct (pd_row_labno _ _ _ _ _ B) as [F1 F2].
            exists r. split; [exact Hr|]. rewrite (lone_pd_row r i d p pa v sc Hr O D Hp B), HQ, orb_true_r, B2, Z.eqb_refl. split; [reflexivity|]. unfold pd_key. congruence.
    Qed.

    Lemma example_lists : det_datum_example eps t s tb (Z.of_nat i) =
      MkDEx (map (fun y => (Some (Some (a_uid (fst y))), Some (Some (a_uid (snd y))))) (right_pairs eps t s d))
        (map (fun a => Some (Some (a_uid a))) (wrong_pds eps t s d)) (map (fun a => Some (Some (a_uid a))) (missed_gts eps t s d)).
    Proof. unfold det_datum_example. rewrite tp_list, fp_list, fn_list. reflexivity. Qed.
  End Example.
End Lists.
