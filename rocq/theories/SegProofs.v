(* The rows stored for segmentations: their labels, metadata and pixel counts. *)
From Verif Require Import Prelude Counting CacheModel CacheSpec ClsModel ClsSpec ClsLabelProofs FlowModel DetFlowModel DetFlowProofs SegModel SegSpec SegPixelProofs.
From Coq Require Import QArith String.
Local Open Scope nat_scope.
Local Open Scope list_scope.

(* ------------------------------------------------------------------ labels *)
Definition idn (L : list string) (v : string) : nat := match index_of v L with Some i => i | None => 0 end.

Lemma add_labels_spec vs : forall L L', extends (first_appearance L vs) L' ->
  add_labels L vs = (first_appearance L vs, map (idn L') vs).
Proof.
  induction vs as [|v vs IH]; intros L L' E; [reflexivity|]. cbn [add_labels map].
  destruct (add_label_spec L v) as (i & -> & Hi & Hx).
  change (first_appearance L (v :: vs)) with (first_appearance (first_appearance L [v]) vs) in *.
  rewrite (IH _ _ E). f_equal. f_equal. unfold idn.
  rewrite (extends_index (first_appearance L [v]) L' v i); [reflexivity| |exact Hi].
  eapply extends_trans; [apply first_appearance_extends|exact E].
Qed.

(* ids of the labels of a datum, and its counts *)
Definition counts_of (L : list string) (s : segmentation) : nat -> nat -> Z :=
  compute_intermediates (Z.to_nat (sg_size s)) (stack_masks (sg_size s) (sg_gts s)) (stack_masks (sg_size s) (sg_pds s))
    (map (idn L) (map bm_label (sg_gts s))) (map (idn L) (map bm_label (sg_pds s))).
Definition next_labels (L : list string) (s : segmentation) : list string := first_appearance L (seg_datum_labels s).
Definition drows (L : list string) (k : nat) (s : segmentation) : list srow := seg_rows s k L (counts_of L s).
Fixpoint writes_from (L : list string) (k : nat) (ss : list segmentation) : list (list srow) :=
  match ss with
  | [] => []
  | s :: t => drows (next_labels L s) k s :: writes_from (next_labels L s) (S k) t
  end.

Lemma seg_add_one_spec l s :
  seg_add_one l s = MkSL (next_labels (sl_labels l) s) (S (sl_count l))
                      (sl_writes l ++ [drows (next_labels (sl_labels l) s) (sl_count l) s]).
Proof.
  unfold seg_add_one, next_labels, seg_datum_labels. rewrite first_appearance_app.
  rewrite (add_labels_spec _ _ (first_appearance (first_appearance (sl_labels l) (map bm_label (sg_gts s))) (map bm_label (sg_pds s))))
    by apply first_appearance_extends.
  rewrite (add_labels_spec _ _ _ (extends_refl _)). reflexivity.
Qed.
Lemma seg_add_data_spec ss : forall l,
  seg_add_data l ss = MkSL (first_appearance (sl_labels l) (List.concat (map seg_datum_labels ss)))
                        (sl_count l + List.length ss) (sl_writes l ++ writes_from (sl_labels l) (sl_count l) ss).
Proof.
  induction ss as [|s ss IH]; intros l.
  - cbn. rewrite Nat.add_0_r, app_nil_r. destruct l; reflexivity.
  - unfold seg_add_data in *. cbn [fold_left]. rewrite IH, seg_add_one_spec. cbn [sl_labels sl_count sl_writes map List.concat List.length writes_from].
    rewrite first_appearance_app, <- app_assoc. f_equal. lia.
Qed.
Lemma writes_from_app a b : forall L k,
  writes_from L k (a ++ b) = writes_from L k a ++ writes_from (first_appearance L (List.concat (map seg_datum_labels a))) (k + List.length a) b.
Proof.
  induction a as [|s a IH]; intros L k; cbn; [rewrite Nat.add_0_r; reflexivity|].
  rewrite IH, first_appearance_app. do 2 f_equal. f_equal. lia.
Qed.
Lemma writes_from_length ss : forall L k, List.length (writes_from L k ss) = List.length ss.
Proof. induction ss; intros; cbn; auto. Qed.
Lemma drows_nonempty L k s : drows L k s <> [].
Proof. unfold drows, seg_rows. cbv zeta. intros E. apply app_eq_nil in E. destruct E as [_ E]. discriminate. Qed.
Lemma writes_from_nonempty ss : forall L k, Forall (fun w => w <> []) (writes_from L k ss).
Proof. induction ss; intros; cbn; constructor; [apply drows_nonempty|auto]. Qed.

(* the write for datum number k *)
Lemma writes_from_nth ss : forall L k i s, nth_error ss i = Some s ->
  exists L', nth_error (writes_from L k ss) i = Some (drows L' (k + i) s)
    /\ L' = first_appearance L (List.concat (map seg_datum_labels (firstn (S i) ss)))
    /\ extends L' (first_appearance L (List.concat (map seg_datum_labels ss))).
Proof.
  induction ss as [|s0 ss IH]; intros L k i s Hi; [destruct i; discriminate|].
  destruct i as [|i].
  - cbn in Hi. injection Hi as <-. cbn [writes_from nth_error firstn map List.concat]. rewrite app_nil_r.
    exists (next_labels L s0). rewrite Nat.add_0_r. split; [reflexivity|]. split; [reflexivity|].
    rewrite first_appearance_app. apply first_appearance_extends.
  - cbn in Hi. destruct (IH (next_labels L s0) (S k) i s Hi) as (L' & H1 & H2 & H3). exists L'.
    cbn [writes_from nth_error]. rewrite H1. split; [f_equal; f_equal; lia|].
    change (firstn (S (S i)) (s0 :: ss)) with (s0 :: firstn (S i) ss). cbn [map List.concat].
    rewrite !first_appearance_app. split; assumption.
Qed.

(* ------------------------------------------------------------------ metadata *)
Lemma meta_get_app a b f : meta_get (a ++ b) f = match meta_get a f with Some v => Some v | None => meta_get b f end.
Proof.
  unfold meta_get. induction a as [|[k v] a IH]; [reflexivity|]. cbn. destruct (String.eqb f k); [reflexivity|exact IH].
Qed.
Lemma meta_get_unused m f : ~ In f (map fst m) -> meta_get m f = None.
Proof.
  unfold meta_get. induction m as [|[k v] m IH]; intros H; [reflexivity|]. cbn in *.
  destruct (String.eqb f k) eqn:E; [apply String.eqb_eq in E; subst; exfalso; auto|apply IH; auto].
Qed.
Lemma label_meta_cases L bs i : label_meta L bs i = [] \/
  exists b, In b bs /\ index_of (bm_label b) L = Some i /\ label_meta L bs i = bm_meta b.
Proof.
  unfold label_meta.
  assert (G : forall acc, fold_left (fun acc b => match bm_meta b with [] => acc | _ :: _ =>
       match index_of (bm_label b) L with Some j => if Nat.eqb j i then bm_meta b else acc | None => acc end end) bs acc = acc
     \/ exists b, In b bs /\ index_of (bm_label b) L = Some i /\
         fold_left (fun acc b => match bm_meta b with [] => acc | _ :: _ =>
           match index_of (bm_label b) L with Some j => if Nat.eqb j i then bm_meta b else acc | None => acc end end) bs acc = bm_meta b).
  { induction bs as [|b bs IH]; intros acc; cbn [fold_left]; [left; reflexivity|].
    set (acc' := match bm_meta b with [] => acc | _ :: _ => match index_of (bm_label b) L with Some j => if Nat.eqb j i then bm_meta b else acc | None => acc end end).
    destruct (IH acc') as [E|(b' & H1 & H2 & H3)]; [|right; exists b'; split; [right; exact H1|split; assumption]].
    rewrite E. unfold acc'. destruct (bm_meta b) eqn:Em; [left; reflexivity|].
    destruct (index_of (bm_label b) L) as [j|] eqn:Ei; [|left; reflexivity].
    destruct (Nat.eqb j i) eqn:Ej; [|left; reflexivity].
    right. exists b. split; [left; reflexivity|]. split; [rewrite Ei; f_equal; lia|symmetry; exact Em]. }
  destruct (G []) as [E|E]; [left; exact E|right; exact E].
Qed.
Lemma label_meta_has L bs i b : distinct_labels bs -> In b bs -> index_of (bm_label b) L = Some i ->
  label_meta L bs i = bm_meta b.
Proof.
  unfold label_meta, distinct_labels.
  intros Hn Hb Hi. apply in_split in Hb. destruct Hb as (b1 & b2 & ->). rewrite fold_left_app. cbn [fold_left].
  rewrite map_app in Hn. cbn [map] in Hn. apply NoDup_remove_2 in Hn.
  assert (skip : forall bs acc, (forall x, In x bs -> bm_label x <> bm_label b) ->
     fold_left (fun acc b => match bm_meta b with [] => acc | _ :: _ =>
       match index_of (bm_label b) L with Some j => if Nat.eqb j i then bm_meta b else acc | None => acc end end) bs acc = acc).
  { induction bs as [|x bs IH]; intros acc H; [reflexivity|]. cbn [fold_left]. rewrite IH by (intros; apply H; right; assumption).
    destruct (bm_meta x); [reflexivity|]. destruct (index_of (bm_label x) L) as [j|] eqn:E; [|reflexivity].
    destruct (Nat.eqb j i) eqn:Ej; [|reflexivity]. exfalso. apply (H x); [left; reflexivity|].
    assert (j = i) by lia. subst j. eapply index_of_inj; eassumption. }
  rewrite !skip.
  - destruct (bm_meta b) eqn:E; [reflexivity|]. rewrite Hi, Nat.eqb_refl. reflexivity.
  - intros x Hx C. apply Hn. apply in_app_iff. left. rewrite <- C. apply in_map. exact Hx.
  - intros x Hx C. apply Hn. apply in_app_iff. right. rewrite <- C. apply in_map. exact Hx.
Qed.
Lemma label_meta_unused L bs i f : ~ uses_field bs f -> meta_get (label_meta L bs i) f = None.
Proof.
  intros H. apply meta_get_unused. intros Hf. apply H.
  destruct (label_meta_cases L bs i) as [E|(b & Hb & _ & E)]; rewrite E in Hf; [destruct Hf|].
  exists b. auto.
Qed.
Lemma label_meta_own L bs dm i l f : NoDup L -> distinct_labels bs -> nth_error L i = Some l ->
  match meta_get (label_meta L bs i) f with Some v => Some v | None => meta_get dm f end = own_meta bs dm l f.
Proof.
  intros HL Hd Hl. unfold own_meta. destruct (find (fun b => String.eqb (bm_label b) l) bs) as [b|] eqn:E.
  - apply find_some in E. destruct E as [Hb E]. apply String.eqb_eq in E.
    rewrite (label_meta_has L bs i b Hd Hb); [reflexivity|]. rewrite E. apply index_of_NoDup; assumption.
  - destruct (label_meta_cases L bs i) as [->|(b & Hb & Hi & _)]; [reflexivity|].
    exfalso. pose proof (find_none _ _ E b Hb) as F. cbn in F. apply index_of_nth in Hi. rewrite Hl in Hi. injection Hi as ->.
    rewrite String.eqb_refl in F. discriminate.
Qed.

(* ------------------------------------------------------------------ the rows of one datum *)
Definition labn (L : list string) (i : nat) : option string := match i with O => None | S k => nth_error L k end.

  (* sums over the rows *)
  Definition rsum (Q : srow -> bool) (l : list srow) : Z := zsum (map (fun r => if Q r then s_count r else 0%Z) l).
  Lemma zsum_app a b : zsum (a ++ b) = (zsum a + zsum b)%Z.
  Proof. unfold zsum. induction a; cbn; lia. Qed.
  Lemma rsum_app Q a b : rsum Q (a ++ b) = (rsum Q a + rsum Q b)%Z.
  Proof. unfold rsum. rewrite map_app. apply zsum_app. Qed.
  Lemma rsum_flat_map {A} Q (f : A -> list srow) l : rsum Q (flat_map f l) = zsum (map (fun x => rsum Q (f x)) l).
  Proof. induction l as [|x l IH]; [reflexivity|]. cbn [flat_map map]. rewrite rsum_app, IH. reflexivity. Qed.
  Lemma rsum_filter Q l : zsum (map s_count (filter Q l)) = rsum Q l.
  Proof. unfold rsum, zsum. induction l as [|r l IH]; [reflexivity|]. cbn. destruct (Q r); cbn; lia. Qed.

Section Rows.
  Variables (L : list string) (k : nat) (s : segmentation).
  Hypothesis HL : NoDup L.
  Hypothesis Hin : forall l, In l (seg_datum_labels s) -> In l L.
  Hypothesis Hc : clean s.
  Let n := List.length L.

  (* what a row of the datum says; i, j are matrix indices *)
  Definition row_at (i j : nat) (r : srow) : Prop :=
    i <= n /\ j <= n /\
    s_uid r = sg_uid s /\ s_datum r = Z.of_nat k /\
    s_gt r = (Z.of_nat i - 1)%Z /\ s_gt_label r = labn L i /\
    s_pd r = (Z.of_nat j - 1)%Z /\ s_pd_label r = labn L j /\
    s_count r = counts_of L s i j /\
    (forall f, ~ uses_field (sg_gts s) f -> ~ uses_field (sg_pds s) f -> meta_get (s_meta r) f = meta_get (sg_meta s) f) /\
    (forall l f, labn L i = Some l -> ~ uses_field (sg_pds s) f -> meta_get (s_meta r) f = own_meta (sg_gts s) (sg_meta s) l f) /\
    (forall l f, labn L j = Some l -> ~ uses_field (sg_gts s) f -> meta_get (s_meta r) f = own_meta (sg_pds s) (sg_meta s) l f).

  Lemma drows_In r : In r (drows L k s) -> exists i j, row_at i j r.
  Proof.
    destruct Hc as (_ & _ & _ & Lg & Lp).
    assert (small : forall i, In i (seq 0 (List.length L)) -> S i <= n) by (intros i Hi; apply in_seq in Hi; unfold n; lia).
    unfold drows, seg_rows. cbv zeta. intros H. apply in_app_iff in H. destruct H as [H|[<-|[]]].
    - apply in_flat_map in H. destruct H as (i & Hi & H). apply small in Hi. apply in_app_iff in H. destruct H as [H|H].
      + apply in_flat_map in H. destruct H as (j & Hj & H). apply small in Hj.
        destruct (0 <? counts_of L s (S i) (S j))%Z; [|destruct H]. destruct H as [<-|[]].
        exists (S i), (S j). unfold row_at. cbn [s_uid s_datum s_gt s_gt_label s_pd s_pd_label s_count s_meta labn].
        do 9 (split; [first [exact Hi|exact Hj|reflexivity|lia]|]). unfold meta_merge.
        split; [|split].
        * intros f G P. rewrite !meta_get_app, !label_meta_unused by assumption. reflexivity.
        * intros l f El P. rewrite !meta_get_app, (label_meta_unused _ (sg_pds s)) by assumption. apply label_meta_own; assumption.
        * intros l f El G. rewrite !meta_get_app, (label_meta_unused _ (sg_gts s)) by assumption. apply label_meta_own; assumption.
      + destruct H as [<-|[<-|[]]].
        * exists (S i), 0. unfold row_at. cbn [s_uid s_datum s_gt s_gt_label s_pd s_pd_label s_count s_meta labn].
          do 9 (split; [first [exact Hi|reflexivity|lia]|]). unfold meta_merge.
          split; [|split; [|discriminate]].
          -- intros f G P. rewrite !meta_get_app, !label_meta_unused by assumption. reflexivity.
          -- intros l f El P. rewrite !meta_get_app. apply label_meta_own; assumption.
        * exists 0, (S i). unfold row_at. cbn [s_uid s_datum s_gt s_gt_label s_pd s_pd_label s_count s_meta labn].
          do 9 (split; [first [exact Hi|reflexivity|lia]|]). unfold meta_merge.
          split; [|split; [discriminate|]].
          -- intros f G P. rewrite !meta_get_app, !label_meta_unused by assumption. reflexivity.
          -- intros l f El G. rewrite !meta_get_app, (label_meta_unused _ (sg_gts s)) by assumption. apply label_meta_own; assumption.
    - exists 0, 0. unfold row_at. cbn [s_uid s_datum s_gt s_gt_label s_pd s_pd_label s_count s_meta labn].
      do 9 (split; [first [reflexivity|lia]|]). split; [|split]; [reflexivity|discriminate|discriminate].
  Qed.

  (* every label id occurs in both columns *)
  Lemma drows_ids i : i <= n ->
    In (Z.of_nat i - 1)%Z (map s_gt (drows L k s)) /\ In (Z.of_nat i - 1)%Z (map s_pd (drows L k s)).
  Proof.
    intros Hi. unfold drows, seg_rows. cbv zeta. rewrite !map_app, !in_app_iff. destruct i as [|i].
    - split; right; left; reflexivity.
    - assert (Hs : In i (seq 0 (List.length L))) by (apply in_seq; unfold n in *; lia).
      split; left; rewrite flat_map_concat_map, concat_map, map_map; apply in_concat.
      + eexists. split; [apply in_map; exact Hs|]. rewrite map_app, in_app_iff. right. left. cbn [s_gt]. lia.
      + eexists. split; [apply in_map; exact Hs|]. rewrite map_app, in_app_iff. right. right. left. cbn [s_pd]. lia.
  Qed.

End Rows.

Lemma zsum_ext {A} (f g : A -> Z) l : (forall x, In x l -> f x = g x) -> zsum (map f l) = zsum (map g l).
Proof. unfold zsum. induction l as [|x l IH]; intros H; [reflexivity|]. cbn. rewrite (H x (or_introl eq_refl)), IH; auto. intros; apply H; right; assumption. Qed.
Lemma zsum_nat {A} (f : A -> nat) l : zsum (map (fun x => Z.of_nat (f x)) l) = Z.of_nat (list_sum_nat (map f l)).
Proof. unfold zsum, list_sum_nat. induction l as [|x l IH]; [reflexivity|]. cbn. lia. Qed.
Lemma zsum_add {A} (f g : A -> Z) l : zsum (map (fun x => f x + g x)%Z l) = (zsum (map f l) + zsum (map g l))%Z.
Proof. unfold zsum. induction l as [|x l IH]; [reflexivity|]. cbn in *. lia. Qed.

Lemma seq_S_map n : seq 0 (S n) = 0 :: map S (seq 0 n).
Proof. cbn. rewrite seq_shift. reflexivity. Qed.

Lemma zsum_S (f : nat -> Z) n : zsum (map f (seq 0 (S n))) = (f O + zsum (map (fun i => f (S i)) (seq 0%nat n)))%Z.
Proof. rewrite seq_S_map. cbn [map]. rewrite map_map. reflexivity. Qed.
Lemma countb_cons {A} (f : A -> bool) x l : countb f (x :: l) = (if f x then 1 else 0) + countb f l.
Proof. unfold countb. cbn. destruct (f x); reflexivity. Qed.

(* exactly one index stands for a given label *)
Lemma labn_unique L o : NoDup L -> (forall l, o = Some l -> In l L) ->
  countb (fun i => same o (labn L i)) (seq 0 (S (List.length L))) = 1.
Proof.
  intros HL Ho. rewrite seq_S_map, countb_cons, countb_map. cbn [labn]. destruct o as [l|].
  - cbn [same]. specialize (Ho l eq_refl). cbn [Nat.add]. revert HL Ho. induction L as [|x L' IH]; intros HL Ho; [destruct Ho|].
    inversion HL as [|? ? Hx HL']; subst. cbn [List.length]. rewrite seq_S_map, countb_cons, countb_map. cbn [nth_error same].
    destruct (String.eqb l x) eqn:Ex.
    + apply String.eqb_eq in Ex. subst x. rewrite countb_false; [reflexivity|]. intros i _.
      destruct (nth_error L' i) as [y|] eqn:Ey; [|reflexivity]. cbn. apply String.eqb_neq. intros ->.
      apply Hx. eapply nth_error_In. exact Ey.
    + apply IH; [exact HL'|]. destruct Ho as [->|Ho]; [rewrite String.eqb_refl in Ex; discriminate|exact Ho].
  - cbn [same]. rewrite countb_false; [reflexivity|]. intros i Hi. apply in_seq in Hi.
    destruct (nth_error L i) eqn:E; [reflexivity|]. apply nth_error_None in E. lia.
Qed.

Section Sum.
  Variables (L : list string) (k : nat) (s : segmentation).
  Hypothesis HL : NoDup L.
  Hypothesis Hin : forall l, In l (seg_datum_labels s) -> In l L.
  Hypothesis Hc : clean s.
  Hypothesis Hsmall : (sg_size s < 2 ^ 64)%Z.
  Let n := List.length L.
  Variables (Q : srow -> bool) (F : option string -> option string -> bool).
  Hypothesis HQ : forall r, In r (drows L k s) -> Q r = F (s_gt_label r) (s_pd_label r).

  Definition cellv (i j : nat) : Z := if F (labn L i) (labn L j) then counts_of L s i j else 0%Z.

  Lemma idn_ids bs : (forall b, In b bs -> In (bm_label b) L) -> ids_of L bs (map (idn L) (map bm_label bs)).
  Proof.
    intros H. induction bs as [|b bs IH]; cbn; constructor; [|apply IH; intros; apply H; right; assumption].
    unfold idn. destruct (index_of (bm_label b) L) eqn:E; [reflexivity|]. apply index_of_None in E. exfalso. apply E, H. left. reflexivity.
  Qed.
  Lemma counts_cell i j : i <= n -> j <= n ->
    counts_of L s i j = Z.of_nat (countb (fun p => same (gt_at s p) (labn L i) && same (pd_at s p) (labn L j)) (pixels s)).
  Proof.
    intros Hi Hj. unfold counts_of. apply (datum_cell s L _ _ Hc Hsmall HL).
    - apply idn_ids. intros b Hb. apply Hin. unfold seg_datum_labels. apply in_app_iff. left. apply in_map. exact Hb.
    - apply idn_ids. intros b Hb. apply Hin. unfold seg_datum_labels. apply in_app_iff. right. apply in_map. exact Hb.
    - destruct i as [|i]; [reflexivity|]. cbn. destruct (nth_error L i) eqn:E; [reflexivity|]. apply nth_error_None in E. unfold n in Hi. lia.
    - destruct j as [|j]; [reflexivity|]. cbn. destruct (nth_error L j) eqn:E; [reflexivity|]. apply nth_error_None in E. unfold n in Hj. lia.
  Qed.

  Lemma rsum_grid : rsum Q (drows L k s) = zsum (map (fun i => zsum (map (cellv i) (seq 0 (S n)))) (seq 0 (S n))).
  Proof.
    assert (E : rsum Q (drows L k s) = rsum (fun r => F (s_gt_label r) (s_pd_label r)) (drows L k s)).
    { unfold rsum. apply zsum_ext. intros r Hr. rewrite (HQ r Hr). reflexivity. }
    rewrite E. clear HQ E. unfold drows, seg_rows. cbv zeta. fold n.
    rewrite rsum_app, rsum_flat_map.
    rewrite (zsum_ext _ (fun i => (zsum (map (cellv (S i)) (seq 0 (S n))) + cellv 0 (S i))%Z)).
    - rewrite zsum_add. rewrite (zsum_S (fun i => zsum (map (cellv i) (seq 0 (S n)))) n), (zsum_S (cellv 0) n).
      assert (E : rsum (fun r => F (s_gt_label r) (s_pd_label r)) [MkS (sg_uid s) (Z.of_nat k) None (-1) None (-1) (counts_of L s 0 0) (sg_meta s)] = cellv 0 0).
      { unfold rsum, cellv, zsum. cbn. lia. }
      rewrite E. lia.
    - intros i Hi. rewrite rsum_app, rsum_flat_map. rewrite (zsum_S (cellv (S i)) n).
      rewrite (zsum_ext _ (fun j => cellv (S i) (S j))).
      { unfold rsum. cbn [map s_gt_label s_pd_label s_count]. unfold zsum, cellv. cbn [fold_right labn]. lia. 
}
      intros j Hj. apply in_seq in Hi, Hj. unfold cellv. cbn [labn].
      pose proof (counts_cell (S i) (S j)) as C. unfold n in *. specialize (C ltac:(lia) ltac:(lia)).
      destruct (0 <? counts_of L s (S i) (S j))%Z eqn:Ez.
      + unfold rsum. cbn. lia.
      + unfold rsum. cbn. destruct (F _ _); [lia|reflexivity].
  Qed.

  Lemma at_in p l : gt_at s p = Some l \/ pd_at s p = Some l -> In l L.
  Proof.
    intros [H|H]; apply Hin; unfold seg_datum_labels; apply in_app_iff; [left|right]; eapply label_at_label; exact H.
  Qed.

  (* SPEC-level: the counts of the rows selected by their labels *)
  Theorem rows_sum : rsum Q (drows L k s) = Z.of_nat (countb (fun p => F (gt_at s p) (pd_at s p)) (pixels s)).
  Proof.
    rewrite rsum_grid.
    set (cnt := fun i j => countb (fun p => same (gt_at s p) (labn L i) && (same (pd_at s p) (labn L j) && F (labn L i) (labn L j))) (pixels s)).
    assert (E : forall i j, i <= n -> j <= n -> cellv i j = Z.of_nat (cnt i j)).
    { intros i j Hi Hj. unfold cellv, cnt. destruct (F (labn L i) (labn L j)).
      - rewrite counts_cell by assumption. f_equal. apply countb_ext. intros p _. rewrite andb_true_r. reflexivity.
      - rewrite countb_false; [reflexivity|]. intros p _. rewrite !andb_false_r. reflexivity. }
    rewrite (zsum_ext _ (fun i => Z.of_nat (list_sum_nat (map (cnt i) (seq 0 (S n)))))).
    2:{ intros i Hi. apply in_seq in Hi. rewrite (zsum_ext _ (fun j => Z.of_nat (cnt i j))); [apply zsum_nat|].
        intros j Hj. apply in_seq in Hj. apply E; lia. }
    rewrite zsum_nat. f_equal.
    rewrite (list_sum_nat_ext _ (fun i => list_sum_nat (map (fun p => countb (fun j => same (gt_at s p) (labn L i) && (same (pd_at s p) (labn L j) && F (labn L i) (labn L j))) (seq 0 (S n))) (pixels s)))).
    2:{ intros i _. unfold cnt. apply (list_sum_map_countb (fun j p => same (gt_at s p) (labn L i) && (same (pd_at s p) (labn L j) && F (labn L i) (labn L j)))). }
    rewrite list_sum_swap. rewrite <- list_sum_nat_if. apply list_sum_nat_ext. intros p _.
    rewrite (list_sum_nat_ext _ (fun i => if same (gt_at s p) (labn L i) && F (gt_at s p) (pd_at s p) then 1 else 0)).
    - rewrite list_sum_nat_if. destruct (F (gt_at s p) (pd_at s p)).
      + rewrite (countb_ext _ (fun i => same (gt_at s p) (labn L i))) by (intros; apply andb_true_r).
        apply labn_unique; [exact HL|]. intros l Hl. apply (at_in p). left. exact Hl.
      + apply countb_false. intros; apply andb_false_r.
    - intros i _. destruct (same (gt_at s p) (labn L i)) eqn:Eg; [|apply countb_false; reflexivity]. cbn [andb].
      apply same_eq in Eg. rewrite <- Eg. destruct (F (gt_at s p) (pd_at s p)) eqn:EF.
      + rewrite (countb_ext _ (fun j => same (pd_at s p) (labn L j))).
        * apply labn_unique; [exact HL|]. intros l Hl. apply (at_in p). right. exact Hl.
        * intros j _. destruct (same (pd_at s p) (labn L j)) eqn:Ep; [|reflexivity]. apply same_eq in Ep. rewrite <- Ep. exact EF.
      + apply countb_false. intros j _. destruct (same (pd_at s p) (labn L j)) eqn:Ep; [|reflexivity]. apply same_eq in Ep. rewrite <- Ep. exact EF.
  Qed.
End Sum.
