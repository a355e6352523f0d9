(* Packed membership (C34) and greedy matching (C33). *)
From Verif Require Import Prelude Counting CacheModel ClsModel DetModel DetSpec.
From Coq Require Import Lia.
Local Open Scope list_scope.
Local Open Scope Z_scope.

Lemma to_int32_small z : - 2 ^ 31 <= z < 2 ^ 31 -> to_int32 z = z.
Proof. intros H. unfold to_int32. rewrite Z.mod_small by lia. lia. Qed.

Lemma to_int64_small z : - 2 ^ 63 <= z < 2 ^ 63 -> to_int64 z = z.
Proof. intros H. unfold to_int64. rewrite Z.mod_small by lia. lia. Qed.

Lemma pack_nonneg a b : id_ok a -> id_ok b -> pack (a, b) = a * 2 ^ 32 + b.
Proof.
  unfold id_ok. intros Ha Hb. unfold pack. cbn [fst snd].
  rewrite Z.shiftl_mul_pow2 by lia.
  rewrite to_int64_small by lia. rewrite to_int32_small by lia.
  assert (E : Z.land (a * 2 ^ 32) b = 0).
  { apply Z.bits_inj'. intros n Hn. rewrite Z.land_spec, Z.bits_0.
    destruct (Z_lt_le_dec n 32) as [H|H].
    - rewrite Z.mul_pow2_bits_low by lia. reflexivity.
    - assert (Z.testbit b n = false) as ->.
      { destruct (Z.eq_dec b 0) as [->|Hz]; [apply Z.bits_0|].
        apply Z.bits_above_log2; [lia|]. apply Z.log2_lt_pow2; [lia|].
        apply Z.lt_le_trans with (2 ^ 31); [lia|]. apply Z.pow_le_mono_r; lia. }
      apply andb_false_r. }
  rewrite <- Z.lxor_lor by exact E. rewrite <- Z.add_nocarry_lxor by exact E. reflexivity.
Qed.

Lemma pack_absent a b : id_or_absent a -> id_or_absent b -> a = -1 \/ b = -1 -> pack (a, b) < 0.
Proof.
  unfold id_or_absent. intros Ha Hb H. unfold pack. cbn [fst snd].
  rewrite Z.shiftl_mul_pow2 by lia. rewrite to_int64_small by lia. rewrite to_int32_small by lia.
  apply Z.lor_neg. lia.
Qed.

Lemma pack_inj a b c d : id_or_absent a -> id_or_absent b -> id_ok c -> id_ok d ->
  pack (a, b) = pack (c, d) -> (a, b) = (c, d).
Proof.
  intros Ha Hb Hc Hd E. rewrite (pack_nonneg c d Hc Hd) in E.
  destruct (Z.eq_dec a (-1)) as [H|H].
  { pose proof (pack_absent a b Ha Hb (or_introl H)). unfold id_ok in *. lia. }
  destruct (Z.eq_dec b (-1)) as [H'|H'].
  { pose proof (pack_absent a b Ha Hb (or_intror H')). unfold id_ok in *. lia. }
  unfold id_or_absent in *. rewrite pack_nonneg in E by (unfold id_ok; lia).
  unfold id_ok in *. f_equal; nia.
Qed.

Lemma isin_spec subset p :
  (forall c d, In (c, d) subset -> id_ok c /\ id_ok d) ->
  id_or_absent (fst p) -> id_or_absent (snd p) ->
  isin subset p = true <-> In p subset.
Proof.
  intros Hs H1 H2. unfold isin. rewrite existsb_exists. split.
  - intros (x & Hx & E). apply Z.eqb_eq in E. apply in_map_iff in Hx.
    destruct Hx as ([c d] & <- & Hin). destruct p as [a b].
    destruct (Hs c d Hin). rewrite (pack_inj a b c d); auto.
  - intros Hin. exists (pack p). split; [apply in_map; exact Hin|apply Z.eqb_refl].
Qed.

(* ------------------------------------------------------------------ *)
(** * Greedy *)

Lemma zmem_In x l : zmem x l = true <-> In x l.
Proof.
  unfold zmem. rewrite existsb_exists. split.
  - intros (y & H & E). apply Z.eqb_eq in E. subst. exact H.
  - intros H. exists x. split; [exact H|apply Z.eqb_refl].
Qed.

Lemma zmem_nIn x l : zmem x l = false <-> ~ In x l.
Proof. rewrite <- zmem_In. destruct (zmem x l); split; congruence. Qed.

Lemma greedy_cons ug up g p l :
  greedy ug up ((g, p) :: l) =
  if (g <? 0) || (p <? 0) || zmem g ug || zmem p up then greedy ug up l
  else (g, p) :: greedy (g :: ug) (p :: up) l.
Proof. reflexivity. Qed.

Lemma greedy_app ug up l1 l2 :
  greedy ug up (l1 ++ l2) =
  greedy ug up l1 ++ greedy (rev (map fst (greedy ug up l1)) ++ ug) (rev (map snd (greedy ug up l1)) ++ up) l2.
Proof.
  revert ug up. induction l1 as [|[g p] t IH]; intros ug up; [reflexivity|].
  rewrite <- app_comm_cons, !greedy_cons.
  destruct ((g <? 0) || (p <? 0) || zmem g ug || zmem p up); [apply IH|].
  rewrite IH. cbn [map rev fst snd app]. rewrite <- !app_assoc. reflexivity.
Qed.

Lemma greedy_In ug up l x : In x (greedy ug up l) ->
  In x l /\ valid_pair x /\ ~ In (fst x) ug /\ ~ In (snd x) up.
Proof.
  revert ug up. induction l as [|[g p] t IH]; intros ug up; [intros []|].
  rewrite greedy_cons. destruct ((g <? 0) || (p <? 0) || zmem g ug || zmem p up) eqn:E.
  - intros H. destruct (IH _ _ H) as (A & B). split; [right; exact A|exact B].
  - rewrite !orb_false_iff in E. destruct E as [[[E1 E2] E3] E4].
    apply zmem_nIn in E3. apply zmem_nIn in E4. intros [<-|H].
    + split; [left; reflexivity|]. unfold valid_pair. simpl. split; [lia|tauto].
    + destruct (IH _ _ H) as (A & B & C & D). split; [right; exact A|].
      simpl in C, D. tauto.
Qed.

Lemma greedy_NoDup ug up l :
  NoDup (map fst (greedy ug up l)) /\ NoDup (map snd (greedy ug up l)).
Proof.
  revert ug up. induction l as [|[g p] t IH]; intros ug up; [split; constructor|].
  rewrite greedy_cons. destruct ((g <? 0) || (p <? 0) || zmem g ug || zmem p up); [apply IH|].
  destruct (IH (g :: ug) (p :: up)) as [A B]. cbn [map fst snd]. split; constructor; auto.
  - intros H. apply in_map_iff in H. destruct H as (x & Hx & Hin).
    apply greedy_In in Hin. simpl in Hin. rewrite Hx in Hin. tauto.
  - intros H. apply in_map_iff in H. destruct H as (x & Hx & Hin).
    apply greedy_In in Hin. simpl in Hin. rewrite Hx in Hin. tauto.
Qed.

(* an unselected valid pair conflicts with a selected pair listed before it *)
Lemma greedy_blocked l1 x l2 : valid_pair x ->
  In x (greedy [] [] (l1 ++ x :: l2)) \/
  (exists y, In y (greedy [] [] l1) /\ conflict x y).
Proof.
  intros [H1 H2]. destruct x as [g p]. simpl in H1, H2. rewrite greedy_app, greedy_cons.
  destruct (_ || _) eqn:E.
  - right. rewrite !orb_true_iff in E. destruct E as [[[E|E]|E]|E]; try lia.
    + apply zmem_In in E. rewrite app_nil_r, <- in_rev in E. apply in_map_iff in E.
      destruct E as (y & Hy & Hin). exists y. split; [exact Hin|left; simpl; auto].
    + apply zmem_In in E. rewrite app_nil_r, <- in_rev in E. apply in_map_iff in E.
      destruct E as (y & Hy & Hin). exists y. split; [exact Hin|right; simpl; auto].
  - left. apply in_app_iff. right. left. reflexivity.
Qed.

(* selected pairs that are listed before are selected before: the choice is made
   in list order and never revised *)
Lemma greedy_prefix l1 l2 x : In x (greedy [] [] l1) -> In x (greedy [] [] (l1 ++ l2)).
Proof. intros H. rewrite greedy_app. apply in_app_iff. left; exact H. Qed.

Lemma greedy_pick l1 x l2 : ~ In x l1 ->
  In x (greedy [] [] (l1 ++ x :: l2)) <->
  valid_pair x /\ forall y, In y (greedy [] [] l1) -> ~ conflict x y.
Proof.
  intros Hn. split.
  - intros H. split; [apply greedy_In in H; tauto|].
    intros y Hy Hc. rewrite greedy_app in H. apply in_app_iff in H. destruct H as [H|H].
    { apply greedy_In in H. tauto. }
    apply greedy_In in H. rewrite !app_nil_r in H. destruct H as (_ & _ & A & B).
    rewrite <- in_rev in A. rewrite <- in_rev in B.
    destruct Hc as [Hc|Hc]; [apply A|apply B]; rewrite Hc; apply in_map; exact Hy.
  - intros [Hv H]. destruct (greedy_blocked l1 x l2 Hv) as [Hin|(y & Hy & Hc)]; [exact Hin|].
    exfalso. exact (H y Hy Hc).
Qed.

(* the selection is the only one with these properties *)
Lemma first_occurrence (x : Z * Z) l : In x l -> exists l1 l2, l = l1 ++ x :: l2 /\ ~ In x l1.
Proof.
  induction l as [|y t IH]; [intros []|]. intros H.
  destruct (zz_dec y x) as [->|Hne].
  - exists [], t. split; [reflexivity|intros []].
  - destruct H as [H|H]; [congruence|]. destruct (IH H) as (l1 & l2 & -> & Hn).
    exists (y :: l1), l2. split; [reflexivity|]. intros [E|E]; [congruence|contradiction].
Qed.

Lemma greedy_is_selection l : greedy_selection l (fun x => In x (greedy [] [] l)).
Proof.
  intros l1 x l2 E Hn. rewrite E at 1. rewrite (greedy_pick l1 x l2 Hn).
  split; intros [Hv H]; split; auto; intros y Hy.
  - intros HyK. apply H. rewrite E, greedy_app in HyK. apply in_app_iff in HyK.
    destruct HyK as [HK|HK]; [exact HK|]. exfalso.
    assert (Hyv := greedy_In _ _ _ _ HK). rewrite !app_nil_r in Hyv. destruct Hyv as (_ & Hvy & A & B).
    rewrite <- in_rev in A. rewrite <- in_rev in B.
    apply in_split in Hy. destruct Hy as (m1 & m2 & ->).
    destruct (greedy_blocked m1 y m2 Hvy) as [Hin|(z & Hz & Hc)].
    + apply A. apply in_map. exact Hin.
    + destruct Hc as [Hc|Hc]; [apply A|apply B]; rewrite Hc; apply in_map; apply greedy_prefix; exact Hz.
  - apply H.
    + apply greedy_In in Hy. tauto.
    + rewrite E. apply greedy_prefix. exact Hy.
Qed.

Lemma greedy_selection_unique l K1 K2 :
  greedy_selection l K1 -> greedy_selection l K2 ->
  forall x, In x l -> (K1 x <-> K2 x).
Proof.
  intros H1 H2.
  assert (Hp : forall n l1, length l1 = n -> forall l2, l = l1 ++ l2 ->
                 forall x, In x l1 -> (K1 x <-> K2 x)).
  { induction n as [n IH] using lt_wf_ind. intros l1 Hl l2 E x Hx.
    destruct (first_occurrence x l1 Hx) as (m1 & m2 & -> & Hn).
    rewrite <- app_assoc in E. cbn [app] in E.
    rewrite (H1 m1 x (m2 ++ l2) E Hn), (H2 m1 x (m2 ++ l2) E Hn).
    assert (IHm : forall y, In y m1 -> (K1 y <-> K2 y)).
    { intros y Hy. apply (IH (length m1)) with (l1 := m1) (l2 := x :: m2 ++ l2); auto.
      rewrite app_length in Hl. simpl in Hl. lia. }
    split; intros [Hv H]; (split; [exact Hv|]); intros y Hy HK; apply (H y Hy); apply (IHm y Hy); exact HK. }
  intros x Hx. apply (Hp (length l) l eq_refl []); [symmetry; apply app_nil_r|exact Hx].
Qed.

Lemma matched_mask_spec rows r :
  (forall r', In r' rows -> id_or_absent (d_gt r') /\ id_or_absent (d_pd r')) ->
  In r rows ->
  matched_mask rows r = true <-> In (pair_ids r) (greedy [] [] (map pair_ids rows)).
Proof.
  intros Hids Hr. unfold matched_mask. destruct (Hids r Hr). apply isin_spec; [|assumption|assumption].
  intros c d Hin. apply greedy_In in Hin. destruct Hin as (Hin & [Hc Hd] & _).
  apply in_map_iff in Hin. destruct Hin as (r' & E & Hr'). destruct (Hids r' Hr').
  unfold pair_ids in E. inversion E; subst. simpl in *. unfold id_ok, id_or_absent in *. lia.
Qed.
