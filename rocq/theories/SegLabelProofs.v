(* The label map of a segmentation evaluator, and what a fresh evaluator holds. *)
From Verif Require Import Prelude Counting CacheModel CacheSpec CacheProofs ClsModel ClsSpec ClsLabelProofs ClsProofs FlowModel FlowProofs DetFlowModel DetFlowProofs Pipeline SegModel SegSpec SegPixelProofs SegProofs SegStoreProofs.
From Coq Require Import QArith String Sorted.
Local Open Scope nat_scope.
Local Open Scope list_scope.

Definition enum (L : list string) : ldict := combine (map Z.of_nat (seq 0 (List.length L))) (map Some L).

Lemma combine_app' {A B} (a a' : list A) (b b' : list B) : List.length a = List.length b ->
  combine (a ++ a') (b ++ b') = combine a b ++ combine a' b'.
Proof. revert b. induction a as [|x a IH]; intros [|y b] H; try discriminate; [reflexivity|]. cbn in *. f_equal. apply IH. lia. Qed.
Lemma enum_snoc L l : enum (L ++ [l]) = enum L ++ [(Z.of_nat (List.length L), Some l)].
Proof.
  unfold enum. rewrite app_length. cbn [List.length]. rewrite Nat.add_1_r, seq_S, !map_app. cbn [map Nat.add].
  rewrite combine_app'; [reflexivity|]. rewrite !map_length, seq_length. reflexivity.
Qed.
Lemma enum_In L k v : In (k, v) (enum L) <-> exists i l, k = Z.of_nat i /\ v = Some l /\ nth_error L i = Some l.
Proof.
  induction L as [|x L IH] using rev_ind.
  - cbn. split; [tauto|]. intros (i & l & _ & _ & H). destruct i; discriminate.
  - rewrite enum_snoc, in_app_iff, IH. cbn [In]. split.
    + intros [(i & l & -> & -> & H)|[E|[]]].
      * exists i, l. split; [reflexivity|]. split; [reflexivity|]. rewrite nth_error_app1; [exact H|]. apply nth_error_Some. congruence.
      * injection E as <- <-. exists (List.length L), x. split; [reflexivity|]. split; [reflexivity|].
        rewrite nth_error_app2, Nat.sub_diag; [reflexivity|lia].
    + intros (i & l & -> & -> & H). destruct (Nat.lt_ge_cases i (List.length L)) as [Hi|Hi].
      * left. exists i, l. rewrite nth_error_app1 in H by exact Hi. auto.
      * right. left. rewrite nth_error_app2 in H by exact Hi. destruct (i - List.length L) as [|x0] eqn:E; [|destruct x0; discriminate].
        cbn in H. injection H as ->. replace i with (List.length L) by lia. reflexivity.
Qed.
Lemma ldict_set_hit d k v : NoDup (map fst d) -> In (k, v) d -> ldict_set d k v = d.
Proof.
  induction d as [|[k' v'] d IH]; intros H Hi; [destruct Hi|]. cbn in *. inversion H; subst.
  destruct (k =? k')%Z eqn:E.
  - apply Z.eqb_eq in E. subst k'. destruct Hi as [Hi|Hi]; [injection Hi as ->; reflexivity|].
    exfalso. apply H2. change k with (fst (k, v)). apply in_map. exact Hi.
  - destruct Hi as [Hi|Hi]; [injection Hi as -> ->; rewrite Z.eqb_refl in E; discriminate|]. f_equal. auto.
Qed.
Lemma ldict_set_miss d k v : ~ In k (map fst d) -> ldict_set d k v = d ++ [(k, v)].
Proof.
  induction d as [|[k' v'] d IH]; intros H; [reflexivity|]. cbn in *. destruct (k =? k')%Z eqn:E; [apply Z.eqb_eq in E; subst; tauto|].
  f_equal. apply IH. tauto.
Qed.
Lemma enum_keys L : map fst (enum L) = map Z.of_nat (seq 0 (List.length L)).
Proof.
  unfold enum. generalize (map_length Z.of_nat (seq 0 (List.length L))). rewrite seq_length.
  generalize (map Z.of_nat (seq 0 (List.length L))). induction L as [|x L IH]; intros [|k ks] H; try discriminate; [reflexivity|].
  cbn. f_equal. apply IH. cbn in H. lia.
Qed.
Lemma enum_NoDup L : NoDup (map fst (enum L)).
Proof. rewrite enum_keys. apply FinFun.Injective_map_NoDup; [intros x y H; lia|apply seq_NoDup]. Qed.
Lemma firstn_snoc {A} (L : list A) n x : nth_error L n = Some x -> firstn (S n) L = firstn n L ++ [x].
Proof. revert n. induction L as [|y L IH]; intros [|n] H; try discriminate; cbn in *; [injection H as ->; reflexivity|]. f_equal. apply IH. exact H. Qed.

Lemma nth_firstn {A} (L : list A) n i : i < n -> nth_error (firstn n L) i = nth_error L i.
Proof. revert n i. induction L as [|x L IH]; intros [|n] [|i] H; try lia; try reflexivity. cbn. apply IH. lia. Qed.

Lemma update_enum L a b : a <= List.length L -> b <= List.length L ->
  ldict_update (enum (firstn a L)) (enum (firstn b L)) = enum (firstn (Nat.max a b) L).
Proof.
  intros Ha. induction b as [|b IH]; intros Hb; [rewrite Nat.max_0_r; reflexivity|].
  destruct (nth_error L b) as [x|] eqn:E; [|apply nth_error_None in E; lia].
  rewrite (firstn_snoc L b x E), enum_snoc. unfold ldict_update in *. rewrite fold_left_app, IH by lia.
  rewrite firstn_length, Nat.min_l by lia. cbn [fold_left fst snd].
  destruct (Nat.lt_ge_cases b a) as [Hlt|Hge].
  - replace (Nat.max a (S b)) with (Nat.max a b) by lia. apply ldict_set_hit; [apply enum_NoDup|].
    apply enum_In. exists b, x. split; [reflexivity|]. split; [reflexivity|].
    replace (Nat.max a b) with a by lia. rewrite nth_firstn by exact Hlt. exact E.
  - replace (Nat.max a b) with b by lia. replace (Nat.max a (S b)) with (S b) by lia.
    rewrite (firstn_snoc L b x E), enum_snoc. rewrite firstn_length, Nat.min_l by lia. apply ldict_set_miss.
    rewrite enum_keys, firstn_length, Nat.min_l by lia. intros C. apply in_map_iff in C. destruct C as (y & Hy & Hy').
    apply in_seq in Hy'. lia.
Qed.

(* ------------------------------------------------------------------ one table *)
Lemma sorted_unique l1 : forall l2, StronglySorted Z.lt l1 -> StronglySorted Z.lt l2 -> (forall x, In x l1 <-> In x l2) -> l1 = l2.
Proof.
  induction l1 as [|a l1 IH]; intros [|b l2] H1 H2 E; [reflexivity| | |].
  - exfalso. destruct (E b) as [_ X]. apply X. left. reflexivity.
  - exfalso. destruct (E a) as [X _]. apply X. left. reflexivity.
  - inversion H1 as [|? ? S1 F1]; subst. inversion H2 as [|? ? S2 F2]; subst. rewrite Forall_forall in F1, F2.
    assert (a = b).
    { destruct (E a) as [X _]. destruct (X (or_introl eq_refl)) as [X'|X']; [auto|].
      destruct (E b) as [_ Y]. destruct (Y (or_introl eq_refl)) as [Y'|Y']; [auto|]. specialize (F1 b Y'). specialize (F2 a X'). lia. }
    subst b. f_equal. apply IH; auto. intros x. specialize (E x). cbn in E. split; intros Hx.
    + destruct E as [E _]. destruct (E (or_intror Hx)) as [->|]; [|auto]. specialize (F1 x Hx). lia.
    + destruct E as [_ E]. destruct (E (or_intror Hx)) as [->|]; [|auto]. specialize (F2 x Hx). lia.
Qed.
Lemma isort_nodup_sorted l : NoDup l -> StronglySorted Z.lt (isort Z.leb l).
Proof.
  intros H. assert (S : StronglySorted (leP Z.leb) (isort Z.leb l)) by (apply isort_sorted; intros; lia).
  assert (N : NoDup (isort Z.leb l)) by (eapply Permutation_NoDup; [apply isort_perm|exact H]).
  revert S N. generalize (isort Z.leb l). clear. induction l as [|a l IH]; intros S N; constructor.
  - inversion S; inversion N; subst; auto.
  - inversion S as [|? ? S1 F]; inversion N as [|? ? N1 N2]; subst. rewrite Forall_forall in *. intros x Hx. specialize (F x Hx).
    unfold leP in F. assert (a <> x) by (intros ->; auto). lia.
Qed.
Lemma range_sorted n : forall a, StronglySorted Z.lt (map (fun i => Z.of_nat i - 1)%Z (seq a n)).
Proof.
  induction n as [|n IH]; intros a; cbn [seq map]; constructor; [apply IH|].
  apply Forall_forall. intros x Hx. apply in_map_iff in Hx. destruct Hx as (i & <- & Hi). apply in_seq in Hi. lia.
Qed.

(* the ids of a column: a full range from -1 on *)
Definition full_range {A} (idc : A -> Z) (t : list A) (n : nat) : Prop :=
  forall x, In x (map idc t) <-> (-1 <= x < Z.of_nat n)%Z.

Lemma table_labels_enum {A} L idc lbc (t : list A) n :
  (forall r, In r t -> id_ok L (idc r) (lbc r)) -> full_range idc t n -> n <= List.length L ->
  det_table_labels idc lbc t = enum (firstn n L).
Proof.
  intros Hr Hf Hn. unfold det_table_labels.
  assert (E : isort Z.leb (nodup Z.eq_dec (map idc t)) = map (fun i => Z.of_nat i - 1)%Z (seq 0 (S n))).
  { apply sorted_unique; [apply isort_nodup_sorted, NoDup_nodup|apply range_sorted|].
    intros x. split; intros Hx.
    - apply (Permutation_in x (Permutation_sym (isort_perm Z.leb _))) in Hx. apply nodup_In in Hx. apply Hf in Hx.
      apply in_map_iff. exists (Z.to_nat (x + 1)). split; [lia|]. apply in_seq. lia.
    - apply in_map_iff in Hx. destruct Hx as (i & <- & Hi). apply in_seq in Hi.
      apply (Permutation_in _ (isort_perm Z.leb _)). apply nodup_In. apply Hf. lia. }
  rewrite E. clear E.
  assert (G : forall m, m <= n -> ldict_pop (List.concat (map (det_first_label idc lbc t) (map (fun i => Z.of_nat i - 1)%Z (seq 0 (S m))))) (-1) = enum (firstn m L)).
  { induction m as [|m IH]; intros Hm.
    - cbn [seq map List.concat]. unfold det_first_label. destruct (find _ t) as [r|]; reflexivity.
    - rewrite seq_S, !map_app, concat_app. unfold ldict_pop in *. rewrite filter_app, IH by lia. clear IH.
      destruct (nth_error L m) as [l|] eqn:El; [|apply nth_error_None in El; lia].
      rewrite (firstn_snoc L m l El), enum_snoc. rewrite firstn_length, Nat.min_l by lia. f_equal.
      cbn [Nat.add map List.concat]. rewrite app_nil_r. replace (Z.of_nat (S m) - 1)%Z with (Z.of_nat m) by lia.
      unfold det_first_label. destruct (find (fun r => (idc r =? Z.of_nat m)%Z) t) as [r|] eqn:F.
      + apply List.find_some in F. destruct F as [F1 F2]. apply Z.eqb_eq in F2. specialize (Hr r F1). unfold id_ok in Hr.
        destruct (lbc r) as [l'|]; [|lia]. destruct Hr as (i & Hi & Hl). assert (i = m) by lia. subst i.
        assert (l' = l) by congruence. subst l'. cbn [filter fst]. destruct (Z.of_nat m =? -1)%Z eqn:X; [lia|]. reflexivity.
      + exfalso. assert (X : In (Z.of_nat m) (map idc t)) by (apply Hf; lia). apply in_map_iff in X. destruct X as (r & X1 & X2).
        apply (find_none _ _ F) in X2. rewrite X1, Z.eqb_refl in X2. discriminate. }
  apply G. lia.
Qed.

Definition closed_ids {A} (idc : A -> Z) (t : list A) : Prop :=
  forall x y, In x (map idc t) -> (-1 <= y <= x)%Z -> In y (map idc t).
Lemma closed_range {A} L (idc : A -> Z) lbc t : t <> [] -> (forall r, In r t -> id_ok L (idc r) (lbc r)) -> closed_ids idc t ->
  exists n, n <= List.length L /\ full_range idc t n.
Proof.
  intros Ht Hr Hcl.
  assert (B : forall x, In x (map idc t) -> (-1 <= x < Z.of_nat (List.length L))%Z).
  { intros x Hx. apply in_map_iff in Hx. destruct Hx as (r & <- & Hi). specialize (Hr r Hi). unfold id_ok in Hr.
    destruct (lbc r); [|lia]. destruct Hr as (i & -> & Hl). assert (i < List.length L) by (apply nth_error_Some; congruence). lia. }
  assert (M : exists m, In m (map idc t) /\ forall x, In x (map idc t) -> (x <= m)%Z).
  { clear -Ht. induction t as [|a t IH]; [congruence|]. destruct t as [|b t].
    - exists (idc a). split; [left; reflexivity|]. intros x [<-|[]]. lia.
    - destruct IH as (m & Hm & Hx); [discriminate|]. destruct (Z.le_gt_cases (idc a) m) as [H|H].
      + exists m. split; [right; exact Hm|]. intros x [<-|Hi]; auto.
      + exists (idc a). split; [left; reflexivity|]. intros x [<-|Hi]; [lia|]. specialize (Hx x Hi). lia. }
  destruct M as (m & Hm & Hx). pose proof (B m Hm) as Bm.
  exists (Z.to_nat (m + 1)). split; [lia|]. intros x. split; intros H.
  - specialize (Hx x H). specialize (B x H). lia.
  - apply (Hcl m x Hm). lia.
Qed.

Definition table_ok (L : list string) (t : list srow) : Prop :=
  (forall r, In r t -> id_ok L (s_gt r) (s_gt_label r) /\ id_ok L (s_pd r) (s_pd_label r))
  /\ closed_ids s_gt t /\ closed_ids s_pd t.
Lemma list_eq_nil {A} (t : list A) : t = [] \/ t <> [].
Proof. destruct t; [left; reflexivity|right; discriminate]. Qed.
Lemma extract_enum L T : Forall (table_ok L) T ->
  exists M, M <= List.length L /\ seg_extract_labels T = enum (firstn M L)
    /\ forall t r, In t T -> In r t -> (s_gt r < Z.of_nat M)%Z /\ (s_pd r < Z.of_nat M)%Z.
Proof.
  induction T as [|t T IH] using rev_ind; intros H.
  - exists 0. split; [lia|]. split; [reflexivity|]. intros t r [].
  - apply Forall_app in H. destruct H as [H1 H2]. inversion H2 as [|? ? (Hr & C1 & C2) _]; subst.
    destruct (IH H1) as (M & HM & E & B). clear IH.
    destruct (list_eq_nil t) as [->|Ht].
    { exists M. split; [exact HM|]. split.
      - unfold seg_extract_labels in *. rewrite fold_left_app, E. reflexivity.
      - intros t' r Ht' Hin. apply in_app_iff in Ht'. destruct Ht' as [Ht'|[<-|[]]]; [eauto|destruct Hin]. }
    destruct (closed_range L s_gt s_gt_label t Ht (fun r h => proj1 (Hr r h)) C1) as (a & Ha & Fa).
    destruct (closed_range L s_pd s_pd_label t Ht (fun r h => proj2 (Hr r h)) C2) as (b & Hb & Fb).
    exists (Nat.max (Nat.max M a) b). split; [lia|]. split.
    + unfold seg_extract_labels in *. rewrite fold_left_app, E. cbn [fold_left].
      rewrite (table_labels_enum L s_gt s_gt_label t a (fun r h => proj1 (Hr r h)) Fa Ha).
      rewrite (table_labels_enum L s_pd s_pd_label t b (fun r h => proj2 (Hr r h)) Fb Hb).
      rewrite update_enum by lia. apply update_enum; lia.
    + intros t' r Ht' Hin. apply in_app_iff in Ht'. destruct Ht' as [Ht'|[<-|[]]].
      * destruct (B t' r Ht' Hin). lia.
      * assert (X : In (s_gt r) (map s_gt t)) by (apply in_map; exact Hin). assert (Y : In (s_pd r) (map s_pd t)) by (apply in_map; exact Hin).
        apply Fa in X. apply Fb in Y. lia.
Qed.

(* ------------------------------------------------------------------ a fresh cache *)
(* files of consecutive writes *)
Definition fresh (ss : list segmentation) (T : list (list srow)) : Prop :=
  exists gs, T = map (@List.concat srow) gs /\ List.concat gs = writes_from [] 0 ss.

Section Fresh.
  Variables (ss : list segmentation) (T : list (list srow)).
  Hypothesis Hc : Forall clean ss.
  Hypothesis HF : fresh ss T.

  Lemma fresh_rows : List.concat T = base ss.
  Proof. destruct HF as (gs & -> & E). rewrite concat_map_concat, E. reflexivity. Qed.

  Lemma write_of i w : nth_error (writes_from [] 0 ss) i = Some w ->
    exists s L', nth_error ss i = Some s /\ w = drows L' i s /\ NoDup L' /\ clean s
      /\ L' = first_appearance [] (List.concat (map seg_datum_labels (firstn (S i) ss))) /\ extends L' (seg_labels ss).
  Proof.
    intros H. destruct (nth_error ss i) as [s|] eqn:Es.
    - destruct (writes_from_nth ss [] 0 i s Es) as (L' & H1 & H2 & H3). cbn [Nat.add] in H1. rewrite H in H1. injection H1 as ->.
      exists s, L'. split; [reflexivity|]. split; [reflexivity|]. split; [subst L'; apply first_appearance_NoDup; constructor|].
      split; [rewrite Forall_forall in Hc; apply Hc; eapply nth_error_In; exact Es|]. auto.
    - apply nth_error_None in Es. assert (X : nth_error (writes_from [] 0 ss) i <> None) by congruence.
      apply nth_error_Some in X. rewrite writes_from_length in X. lia.
  Qed.
  Lemma writes_aligned : aligned s_datum (writes_from [] 0 ss).
  Proof.
    intros i j ti tj a b Hi Hj Ha Hb E.
    destruct (write_of i ti Hi) as (s & L & _ & -> & N & C & _). destruct (write_of j tj Hj) as (s' & L' & _ & -> & N' & C' & _).
    destruct (drows_In L i s N C a Ha) as (x & y & _ & _ & _ & D & _).
    destruct (drows_In L' j s' N' C' b Hb) as (x' & y' & _ & _ & _ & D' & _). lia.
  Qed.
  Lemma fresh_holds : holds ss all_view T.
  Proof.
    split.
    - rewrite fresh_rows. transitivity (map (fun r => r) (filter (rkept ss all_view) (base ss))).
      + rewrite map_id. symmetry. rewrite (filter_ext_in _ (fun _ => true)).
        * induction (base ss) as [|b l IH]; [reflexivity|]. cbn. f_equal. exact IH.
        * intros r Hr. destruct (base_row ss r Hc Hr) as (k & s & Hk & Hd & _). unfold rkept.
          rewrite (describes_datum ss k s r Hk Hd). reflexivity.
      + apply map_ext_in. intros r Hr. apply filter_In in Hr. destruct Hr as [Hr _].
        destruct (base_row ss r Hc Hr) as (k & s & Hk & Hd & G & P). unfold mask_row.
        rewrite (describes_datum ss k s r Hk Hd). cbn [option_map all_view v_gt v_pd].
        destruct r as [u d gl g pl p c m]. cbn in *. f_equal.
        * unfold mask_id. destruct gl; [reflexivity|exact G].
        * unfold mask_id. destruct pl; [reflexivity|exact P].
    - destruct HF as (gs & -> & E). apply aligned_groups. rewrite E. exact writes_aligned.
  Qed.
  Lemma fresh_table_ok : Forall (table_ok (seg_labels ss)) T.
  Proof.
    rewrite Forall_forall. intros t Ht. split.
    - intros r Hr. assert (X : In r (base ss)) by (rewrite <- fresh_rows; apply in_concat; eauto).
      destruct (base_row ss r Hc X) as (k & s & _ & _ & G & P). split; assumption.
    - destruct HF as (gs & -> & E). apply in_map_iff in Ht. destruct Ht as (g & <- & Hg).
      assert (W : forall w, In w g -> exists i s L', w = drows L' i s /\ NoDup L' /\ clean s).
      { intros w Hw. assert (X : In w (writes_from [] 0 ss)) by (rewrite <- E; apply in_concat; eauto).
        apply In_nth_error in X. destruct X as (i & X). destruct (write_of i w X) as (s & L' & _ & -> & N & C & _). eauto 8. }
      split; intros x y Hx Hy; apply in_map_iff in Hx; destruct Hx as (r & <- & Hr); apply in_concat in Hr; destruct Hr as (w & Hw & Hr);
        destruct (W w Hw) as (i & s & L' & -> & N & C);
        destruct (drows_In L' i s N C r Hr) as (a & b & Ha & Hb & _ & _ & G & _ & P & _).
      + destruct (drows_ids L' i s (Z.to_nat (y + 1))) as [X _]; [lia|].
        apply in_map_iff in X. destruct X as (r' & X1 & X2). apply in_map_iff. exists r'. split; [lia|]. apply in_concat. eauto.
      + destruct (drows_ids L' i s (Z.to_nat (y + 1))) as [_ X]; [lia|].
        apply in_map_iff in X. destruct X as (r' & X1 & X2). apply in_map_iff. exists r'. split; [lia|]. apply in_concat. eauto.
  Qed.
  Lemma fresh_labels : ss <> [] -> label_map (seg_labels ss) (seg_extract_labels T).
  Proof.
    intros Hs. destruct (extract_enum _ T fresh_table_ok) as (M & HM & E & B).
    unfold label_map. fold (enum (seg_labels ss)). rewrite E. f_equal. apply firstn_all2.
    destruct (List.length (seg_labels ss)) as [|n] eqn:En; [lia|].
    (* the last datum has a row with the last label *)
    assert (X : exists r, In r (base ss) /\ s_gt r = Z.of_nat n).
    { assert (Hl : exists s, nth_error ss (List.length ss - 1) = Some s).
      { destruct (nth_error ss (List.length ss - 1)) as [s|] eqn:X; [eauto|]. apply nth_error_None in X. destruct ss; [congruence|cbn in X; lia]. }
      destruct Hl as (s & Hl). destruct (writes_from_nth ss [] 0 _ s Hl) as (L' & H1 & H2 & _). cbn [Nat.add] in H1.
      assert (EL : L' = seg_labels ss).
      { rewrite H2. unfold seg_labels. rewrite firstn_all2; [reflexivity|]. destruct ss; [congruence|cbn; lia]. }
      clear H2. subst L'.
      destruct (drows_ids (seg_labels ss) (List.length ss - 1) s (S n)) as [X _]; [lia|].
      apply in_map_iff in X. destruct X as (r & X1 & X2). exists r. split; [|lia]. apply in_concat. eexists. split; [|exact X2].
      eapply nth_error_In. exact H1. }
    destruct X as (r & Hr & Hg). rewrite <- fresh_rows in Hr. apply in_concat in Hr. destruct Hr as (t & Ht & Hr).
    destruct (B t r Ht Hr). lia.
  Qed.
End Fresh.
