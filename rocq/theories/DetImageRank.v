(* Object detection: the ranked rows of an image under a label depend on the image
   and the label alone, up to the numbers of annotations and labels. *)
From Verif Require Import Prelude Counting CacheModel CacheSpec CacheProofs SortProofs FlowModel FlowProofs ClsModel ClsSpec ClsLabelProofs
  DetModel DetSpec DetMatchProofs DetRankProofs DetCountProofs DetApProofs DetApEnd DetLoaderProofs DetStoreProofs DetFlowModel DetLocalProofs DetMain DetOrderProofs
  DetReportModel DetEnd DetMore DetImage DetReorderSpec.
From Coq Require Import String Lia QArith.
Local Open Scope nat_scope.
Local Open Scope list_scope.
Local Notation length := List.length (only parsing).
Local Notation concat := List.concat (only parsing).

(* ------------------------------------------------------------------ *)
(** * Related lists *)

Lemma Forall2_filter {A B} (R : A -> B -> Prop) f g l l' : Forall2 R l l' -> (forall a b, In a l -> In b l' -> R a b -> f a = g b) ->
  Forall2 R (filter f l) (filter g l').
Proof.
  intros H. induction H as [|a b l l' Hab H IH]; intros E; [constructor|]. cbn.
  rewrite (E a b) by (try (left; reflexivity); exact Hab). 
  assert (X : Forall2 R (filter f l) (filter g l')) by (apply IH; intros x y Hx Hy; apply E; right; assumption).
  destruct (g b); [constructor; assumption|exact X].
Qed.
Lemma Forall2_existsb {A B} (R : A -> B -> Prop) f g l l' : Forall2 R l l' -> (forall a b, R a b -> f a = g b) -> existsb f l = existsb g l'.
Proof. intros H E. induction H as [|a b l l' Hab H IH]; [reflexivity|]. cbn. rewrite (E a b Hab), IH. reflexivity. Qed.
Lemma Forall2_countb {A B} (R : A -> B -> Prop) f g l l' : Forall2 R l l' -> (forall a b, R a b -> f a = g b) -> countb f l = countb g l'.
Proof. intros H E. induction H as [|a b l l' Hab H IH]; [reflexivity|]. unfold countb in *. cbn. rewrite (E a b Hab). destruct (g b); cbn; rewrite IH; reflexivity. Qed.
Lemma Forall2_map_eq {A B C} (R : A -> B -> Prop) (f : A -> C) g l l' : Forall2 R l l' -> (forall a b, R a b -> f a = g b) -> map f l = map g l'.
Proof. intros H E. induction H as [|a b l l' Hab H IH]; [reflexivity|]. cbn. rewrite (E a b Hab), IH. reflexivity. Qed.

Lemma filter_comm {A} (f g : A -> bool) l : filter f (filter g l) = filter g (filter f l).
Proof. rewrite !filter_filter. apply filter_ext. intros x. apply andb_comm. Qed.
Lemma StronglySorted_map {A B} (f : A -> B) (P : B -> B -> Prop) l : StronglySorted (fun a b => P (f a) (f b)) l -> StronglySorted P (map f l).
Proof.
  intros H. induction H as [|a l H IH F]; [constructor|]. cbn. constructor; [exact IH|]. apply Forall_map. exact F.
Qed.
Lemma filter_map_comm {A B} (f : A -> B) (P : B -> bool) l : filter P (map f l) = map f (filter (fun x => P (f x)) l).
Proof. induction l as [|a l IH]; [reflexivity|]. cbn. destruct (P (f a)); cbn; rewrite IH; reflexivity. Qed.
Lemma one_of {A} (P : A -> bool) l i j x y : length (filter P l) <= 1 -> nth_error l i = Some x -> nth_error l j = Some y ->
  P x = true -> P y = true -> i = j.
Proof.
  revert i j. induction l as [|a l IH]; intros i j H Hi Hj Px Py; [destruct i; discriminate|]. cbn in H.
  assert (N : forall k z, nth_error l k = Some z -> P z = true -> 1 <= length (filter P l)).
  { intros k z Hk Pz. assert (I : In z (filter P l)) by (apply filter_In; split; [apply (nth_error_In _ _ Hk)|exact Pz]). destruct (filter P l); [destruct I|cbn; lia]. }
  destruct i as [|i], j as [|j]; cbn in Hi, Hj; [reflexivity| | |].
  - injection Hi as ->. rewrite Px in H. cbn in H. specialize (N j y Hj Py). lia.
  - injection Hj as ->. rewrite Py in H. cbn in H. specialize (N i x Hi Px). lia.
  - f_equal. apply IH; auto. destruct (P a); cbn in H; lia.
Qed.

Lemma nth_combine {A B} (xs : list A) : forall (ys : list B) k x y, nth_error xs k = Some x -> nth_error ys k = Some y -> nth_error (combine xs ys) k = Some (x, y).
Proof.
  induction xs as [|a xs IH]; intros ys k x y Hx Hy; [destruct k; discriminate|]. destruct ys as [|b ys]; [destruct k; discriminate|].
  destruct k as [|k]; cbn in *; [congruence|]. apply IH; assumption.
Qed.

Section FirstsRel.
  Context {A B K : Type}.
  Variables (dec : forall x y : K, {x = y} + {x <> y}) (k1 : A -> K) (k2 : B -> K) (R : A -> B -> Prop).
  Hypothesis HR : forall a b a' b', R a b -> R a' b' -> (k1 a = k1 a' <-> k2 b = k2 b').
  Lemma firsts_Forall2 l l' : Forall2 R l l' -> forall s s', (forall a b, R a b -> kmem dec (k1 a) s = kmem dec (k2 b) s') ->
    Forall2 R (firsts dec k1 s l) (firsts dec k2 s' l').
  Proof.
    intros H. induction H as [|a b l l' Hab H IH]; intros s s' Hs; [constructor|]. cbn. rewrite (Hs a b Hab).
    destruct (kmem dec (k2 b) s'); [apply IH; exact Hs|]. constructor; [exact Hab|]. apply IH.
    intros x y Hxy. specialize (Hs x y Hxy). specialize (HR a b x y Hab Hxy). unfold kmem in *. cbn [in_dec].
    destruct (in_dec dec (k1 x) (k1 a :: s)) as [I1|I1], (in_dec dec (k2 y) (k2 b :: s')) as [I2|I2]; auto; exfalso.
    - apply I2. destruct I1 as [I1|I1]; [left; apply HR; exact I1|right]. destruct (in_dec dec (k1 x) s); [|tauto]. destruct (in_dec dec (k2 y) s'); [assumption|discriminate].
    - apply I1. destruct I2 as [I2|I2]; [left; apply HR; exact I2|right]. destruct (in_dec dec (k2 y) s'); [|tauto]. destruct (in_dec dec (k1 x) s); [assumption|discriminate].
  Qed.
End FirstsRel.

Lemma zzz_leb_mid d p q l : zzz_leb (d, p, l) (d, q, l) = (p <=? q)%Z.
Proof.
  unfold zzz_leb. cbn. rewrite !Z.ltb_irrefl, ?Z.eqb_refl. cbn.
  destruct (Z.ltb_spec p q), (Z.leb_spec p q), (Z.eqb_spec p q); try lia; reflexivity.
Qed.

(* ------------------------------------------------------------------ *)
(** * Rows of one label *)

Definition with_label (l : Z) (r : drow) : bool := (d_pl r =? l)%Z.

Lemma rank_pairs_label l S :
  filter (with_label l) (rank_pairs S)
  = dsort (isort (key_leb pd_key) (firsts zzz_dec pd_key [] (filter (with_label l) (filter (eligibleb S) S)))).
Proof.
  rewrite rank_pairs_eq, table_sort_filter. f_equal. rewrite isort_filter by (apply key_leb_total || apply key_leb_trans). f_equal.
  apply firsts_filter; [|reflexivity]. intros a b E. unfold pd_key in E. unfold with_label. congruence.
Qed.
Lemma filter_filter_sub {A} (f g : A -> bool) l : (forall x, f x = true -> g x = true) -> filter f (filter g l) = filter f l.
Proof.
  intros H. induction l as [|a l IH]; [reflexivity|]. cbn. destruct (g a) eqn:Eg; cbn; rewrite IH; [reflexivity|].
  destruct (f a) eqn:Ef; [rewrite (H a Ef) in Eg; discriminate|reflexivity].
Qed.
Lemma bnd_label unit l pre r : with_label l r = true -> bnd unit (filter (with_label l) pre) r = bnd unit pre r.
Proof.
  intros Hr. unfold bnd. destruct ((0 <=? d_gt r)%Z && (d_gl r =? d_pl r)%Z) eqn:E; [|reflexivity]. f_equal. f_equal.
  apply filter_filter_sub. intros x Hx. unfold gt_mask in Hx. apply andb_true_iff in Hx. destruct Hx as [Hx1 Hx2].
  destruct (zzz_dec (gt_key x) (gt_key r)) as [K|]; [|discriminate]. unfold gt_key in K. injection K as _ _ K.
  apply andb_true_iff in E. destruct E as [_ E]. apply Z.eqb_eq in Hx2, E. unfold with_label in *. apply Z.eqb_eq in Hr. apply Z.eqb_eq. congruence.
Qed.
Lemma annot_label unit l rows : forall pre, filter (with_label l) (annot unit pre rows) = annot unit (filter (with_label l) pre) (filter (with_label l) rows).
Proof.
  induction rows as [|r rows IH]; intros pre; [reflexivity|]. cbn [annot filter].
  assert (E : forall b, with_label l (set_prev r b) = with_label l r) by reflexivity. rewrite E.
  specialize (IH (pre ++ [r])). rewrite filter_app in IH. cbn [filter] in IH.
  destruct (with_label l r) eqn:El; [|rewrite app_nil_r in IH; exact IH]. cbn [annot]. rewrite (bnd_label unit l pre r El), IH. reflexivity.
Qed.

(* ------------------------------------------------------------------ *)
(** * The same image under two numberings *)

Record twin (a b : nat) (dt l0 l1 : Z) (r r' : drow) : Prop := {
  tw_score : d_score r = d_score r';
  tw_iou : d_iou r = d_iou r';
  tw_prev : d_prev r = d_prev r';
  tw_gt : d_gt r' = moved a (d_gt r);
  tw_pd : d_pd r' = moved b (d_pd r);
  tw_same : (d_gl r =? d_pl r)%Z = (d_gl r' =? d_pl r')%Z;
  tw_match : label_match r = label_match r';
  tw_label : (0 <= d_pd r)%Z -> (d_pl r =? l0)%Z = (d_pl r' =? l1)%Z;
  tw_datum : d_datum r = 0%Z;
  tw_datum' : d_datum r' = dt
}.
Lemma moved_eqb k x y : (moved k x =? moved k y)%Z = (x =? y)%Z.
Proof. destruct (Z.eqb_spec x y) as [->|N]; [apply Z.eqb_refl|]. apply Z.eqb_neq. intros E. apply N, (moved_inj k). exact E. Qed.
Lemma moved_nonneg k x : (0 <=? moved k x)%Z = (0 <=? x)%Z.
Proof. rewrite !Z.leb_antisym, moved_neg. reflexivity. Qed.
Lemma moved_leb k x y : (0 <= x)%Z -> (0 <= y)%Z -> (moved k x <=? moved k y)%Z = (x <=? y)%Z.
Proof.
  intros Hx Hy. unfold moved. replace (x <? 0)%Z with false by (symmetry; apply Z.ltb_ge; lia). replace (y <? 0)%Z with false by (symmetry; apply Z.ltb_ge; lia).
  destruct (Z.leb_spec x y); [apply Z.leb_le; lia|apply Z.leb_gt; lia].
Qed.

Section Twins.
  Variables (a b : nat) (dt l0 l1 : Z).
  Notation T := (twin a b dt l0 l1).

  Lemma twin_dsort S S' : Forall2 T S S' -> Forall2 T (dsort S) (dsort S').
  Proof.
    apply (isort_Forall2 T). intros x y x' y' H H'. unfold row_leb, det_sorting. cbn.
    rewrite (tw_score _ _ _ _ _ _ _ H), (tw_score _ _ _ _ _ _ _ H'), (tw_iou _ _ _ _ _ _ _ H), (tw_iou _ _ _ _ _ _ _ H'). reflexivity.
  Qed.
  Lemma twin_eligible S S' r r' : Forall2 T S S' -> T r r' -> eligibleb S r = eligibleb S' r'.
  Proof.
    intros HS H. unfold eligibleb. rewrite (tw_pd _ _ _ _ _ _ _ H), moved_nonneg, (tw_match _ _ _ _ _ _ _ H). f_equal. f_equal. f_equal.
    assert (HF : Forall2 T (filter label_match (filter (fun r => (0 <=? d_pd r)%Z) S)) (filter label_match (filter (fun r => (0 <=? d_pd r)%Z) S'))).
    { apply Forall2_filter; [|intros x y _ _ E; apply (tw_match _ _ _ _ _ _ _ E)]. apply Forall2_filter; [exact HS|].
      intros x y _ _ E. rewrite (tw_pd _ _ _ _ _ _ _ E), moved_nonneg. reflexivity. }
    induction HF as [|x y l l' E HF IH]; [reflexivity|]. cbn. rewrite IH, (tw_pd _ _ _ _ _ _ _ E), moved_eqb. reflexivity.
  Qed.
  (* among rows of the label *)
  Definition labelled (r r' : drow) : Prop := T r r' /\ d_pl r = l0 /\ d_pl r' = l1 /\ (0 <= d_pd r)%Z.
  Lemma Forall2_strengthen {A B} (R R' : A -> B -> Prop) l l' : Forall2 R l l' -> (forall x y, In x l -> In y l' -> R x y -> R' x y) -> Forall2 R' l l'.
  Proof.
    intros H. induction H as [|x y l l' E H IH]; intros X; constructor; [apply X; try (left; reflexivity); exact E|].
    apply IH. intros x' y' Hx Hy. apply X; right; assumption.
  Qed.
  Lemma labelled_isort S S' : Forall2 labelled S S' -> Forall2 labelled (isort (key_leb pd_key) S) (isort (key_leb pd_key) S').
  Proof.
    apply isort_Forall2. intros x y x' y' (H & E1 & E2 & P) (H' & E1' & E2' & P'). unfold key_leb, pd_key.
    rewrite (tw_datum _ _ _ _ _ _ _ H), (tw_datum _ _ _ _ _ _ _ H'), (tw_datum' _ _ _ _ _ _ _ H), (tw_datum' _ _ _ _ _ _ _ H'), E1, E2, E1', E2', !zzz_leb_mid.
    rewrite (tw_pd _ _ _ _ _ _ _ H), (tw_pd _ _ _ _ _ _ _ H'), moved_leb by assumption. reflexivity.
  Qed.
  Lemma labelled_dsort S S' : Forall2 labelled S S' -> Forall2 labelled (dsort S) (dsort S').
  Proof.
    apply (isort_Forall2 labelled). intros x y x' y' (H & _) (H' & _). unfold row_leb, det_sorting. cbn.
    rewrite (tw_score _ _ _ _ _ _ _ H), (tw_score _ _ _ _ _ _ _ H'), (tw_iou _ _ _ _ _ _ _ H), (tw_iou _ _ _ _ _ _ _ H'). reflexivity.
  Qed.
  Lemma labelled_firsts S S' : Forall2 labelled S S' -> Forall2 labelled (firsts zzz_dec pd_key [] S) (firsts zzz_dec pd_key [] S').
  Proof.
    intros H. apply (firsts_Forall2 zzz_dec pd_key pd_key labelled); [|exact H|reflexivity].
    intros x y x' y' (E & E1 & E2 & P) (E' & E1' & E2' & P'). unfold pd_key.
    rewrite (tw_datum _ _ _ _ _ _ _ E), (tw_datum _ _ _ _ _ _ _ E'), (tw_datum' _ _ _ _ _ _ _ E), (tw_datum' _ _ _ _ _ _ _ E'), E1, E2, E1', E2'.
    rewrite (tw_pd _ _ _ _ _ _ _ E), (tw_pd _ _ _ _ _ _ _ E'). split; intros X; [injection X as X; congruence|].
    injection X as X. apply moved_inj in X. congruence.
  Qed.
  Lemma twin_rank_pairs S S' : Forall2 T S S' -> Forall2 labelled (filter (with_label l0) (rank_pairs S)) (filter (with_label l1) (rank_pairs S')).
  Proof.
    intros H. rewrite !rank_pairs_label. apply labelled_dsort, labelled_isort, labelled_firsts.
    assert (H1 : Forall2 T (filter (eligibleb S) S) (filter (eligibleb S') S')).
    { apply Forall2_filter; [exact H|]. intros x y _ _ E. apply twin_eligible; assumption. }
    assert (Hp : forall U x, In x (filter (eligibleb U) U) -> (0 <= d_pd x)%Z).
    { intros U x Hx. apply filter_In in Hx. destruct Hx as [_ Hx]. unfold eligibleb in Hx. apply andb_true_iff in Hx. destruct Hx as [Hx _]. lia. }
    assert (H2 : Forall2 T (filter (with_label l0) (filter (eligibleb S) S)) (filter (with_label l1) (filter (eligibleb S') S'))).
    { apply Forall2_filter; [exact H1|]. intros x y Hx _ E. apply (tw_label _ _ _ _ _ _ _ E). apply (Hp S). exact Hx. }
    apply (Forall2_strengthen _ _ _ _ H2). intros x y Hx Hy E. apply filter_In in Hx, Hy. destruct Hx as [Hx Hx'], Hy as [Hy Hy'].
    unfold with_label in *. apply Z.eqb_eq in Hx', Hy'. split; [exact E|]. split; [exact Hx'|]. split; [exact Hy'|]. apply (Hp S). exact Hx.
  Qed.
  Lemma labelled_annot unit S S' : Forall2 labelled S S' -> forall pre pre', Forall2 labelled pre pre' ->
    Forall2 labelled (annot unit pre S) (annot unit pre' S').
  Proof.
    intros H. induction H as [|x y S S' E H IH]; intros pre pre' Hp; [constructor|]. cbn [annot].
    assert (Hb : bnd unit pre x = bnd unit pre' y).
    { destruct E as (E & E1 & E2 & P). unfold bnd. rewrite (tw_gt _ _ _ _ _ _ _ E), moved_nonneg, (tw_same _ _ _ _ _ _ _ E).
      destruct ((0 <=? d_gt x)%Z && (d_gl y =? d_pl y)%Z) eqn:C; [|reflexivity]. rewrite (tw_iou _ _ _ _ _ _ _ E). f_equal.
      apply (Forall2_map_eq labelled); [|intros u w (Euw & _); apply (tw_iou _ _ _ _ _ _ _ Euw)].
      apply Forall2_filter; [exact Hp|]. intros u w _ _ (Euw & U1 & U2 & _). unfold gt_mask.
      rewrite (tw_same _ _ _ _ _ _ _ Euw). apply andb_true_iff in C. destruct C as [_ C].
      assert (C' := C). rewrite <- (tw_same _ _ _ _ _ _ _ E) in C'. apply Z.eqb_eq in C, C'.
      destruct (d_gl w =? d_pl w)%Z eqn:W; [|rewrite !andb_false_r; reflexivity]. rewrite !andb_true_r.
      assert (W' := W). rewrite <- (tw_same _ _ _ _ _ _ _ Euw) in W'. apply Z.eqb_eq in W, W'. unfold gt_key.
      rewrite (tw_datum _ _ _ _ _ _ _ E), (tw_datum _ _ _ _ _ _ _ Euw), (tw_datum' _ _ _ _ _ _ _ E), (tw_datum' _ _ _ _ _ _ _ Euw).
      rewrite (tw_gt _ _ _ _ _ _ _ E), (tw_gt _ _ _ _ _ _ _ Euw), C, C', W, W', U1, U2, E1, E2.
      destruct (zzz_dec (0%Z, d_gt u, l0) (0%Z, d_gt x, l0)) as [K|K], (zzz_dec (dt, moved a (d_gt u), l1) (dt, moved a (d_gt x), l1)) as [K'|K']; auto; exfalso.
      - apply K'. injection K as K. rewrite K. reflexivity.
      - apply K. injection K' as K'. apply moved_inj in K'. rewrite K'. reflexivity. }
    rewrite Hb. constructor.
    - destruct E as ([] & E1 & E2 & P). split; [|auto]. split; cbn; auto.
    - apply IH. apply Forall2_app; [exact Hp|]. constructor; [exact E|constructor].
  Qed.
  Lemma twin_rank_table unit S S' : Forall2 T S S' ->
    Forall2 labelled (filter (with_label l0) (rank_table unit S)) (filter (with_label l1) (rank_table unit S')).
  Proof.
    intros H. rewrite !rank_table_annot, !annot_label. cbn [filter]. apply labelled_annot; [|constructor].
    apply twin_rank_pairs, twin_dsort. exact H.
  Qed.
End Twins.

(* ------------------------------------------------------------------ *)
(** * The rows of an image *)

(* the labels of the image, and the label asked for *)
Definition own_labels (eps : Z) (d : detection) (v : string) : list string := nodup string_dec (v :: flat_map item_labels (items eps d)).
(* ranked rows of the image under a label, with its own numbering *)
Definition image_ranked (eps unit : Z) (d : detection) (v : string) : list drow :=
  filter (with_label (idx (own_labels eps d v) v)) (rank_table unit (flat_map (item_row d 0 0 0 (own_labels eps d v)) (items eps d))).

Lemma own_labels_v eps d v : In v (own_labels eps d v).
Proof. apply nodup_In. left. reflexivity. Qed.
Lemma own_labels_x eps d v x w : In x (items eps d) -> In w (item_labels x) -> In w (own_labels eps d v).
Proof. intros Hx Hw. apply nodup_In. right. apply in_flat_map. eauto. Qed.

Lemma item_rows_twin d i a b L0 L v its : In v L0 -> In v L -> few L0 -> few L ->
  (forall x w, In x its -> In w (item_labels x) -> In w L0 /\ In w L) ->
  Forall2 (twin a b (Z.of_nat i) (idx L0 v) (idx L v)) (flat_map (item_row d 0 0 0 L0) its) (flat_map (item_row d i a b L) its).
Proof.
  intros V0 V F0 F. induction its as [|x its IH]; intros H; [constructor|]. cbn [flat_map].
  apply Forall2_app; [|apply IH; intros y w Hy; apply H; right; exact Hy].
  assert (Hx : forall w, In w (item_labels x) -> In w L0 /\ In w L) by (intros w; apply H; left; reflexivity).
  assert (M : forall k z, Z.of_nat (k + z) = moved k (Z.of_nat (0 + z))).
  { intros k z. unfold moved. replace (Z.of_nat (0 + z) <? 0)%Z with false by (symmetry; apply Z.ltb_ge; lia). lia. }
  assert (R0 : forall w, In w (item_labels x) -> (0 <= idx L0 w < 100000)%Z) by (intros w Hw; destruct (Hx w Hw) as [A _]; apply idx_range in A; unfold few in F0; lia).
  assert (R : forall w, In w (item_labels x) -> (0 <= idx L w < 100000)%Z) by (intros w Hw; destruct (Hx w Hw) as [_ A]; apply idx_range in A; unfold few in F; lia).
  destruct x as [gl|g ga gl|p pa pl s|g ga gl p pa pl s]; cbn [item_row]; [constructor| | |]; (constructor; [|constructor]); cbn [item_labels In] in *.
  - specialize (R0 gl (or_introl eq_refl)). specialize (R gl (or_introl eq_refl)).
    assert (E : (idx L0 gl =? -1)%Z = (idx L gl =? -1)%Z) by (rewrite !(proj2 (Z.eqb_neq _ _)) by lia; reflexivity).
    split; cbn [d_score d_iou d_prev d_gt d_pd d_gl d_pl d_datum]; try reflexivity; try apply M; try exact E; [|lia].
    rewrite !label_match_small by (cbn; lia). exact E.
  - specialize (R0 pl (or_introl eq_refl)). specialize (R pl (or_introl eq_refl)). destruct (Hx pl (or_introl eq_refl)) as [A0 A].
    assert (E : (-1 =? idx L0 pl)%Z = (-1 =? idx L pl)%Z) by (rewrite !(proj2 (Z.eqb_neq _ _)) by lia; reflexivity).
    split; cbn [d_score d_iou d_prev d_gt d_pd d_gl d_pl d_datum]; try reflexivity; try apply M; try exact E.
    + rewrite !label_match_small by (cbn; lia). exact E.
    + intros _. rewrite !idx_eqb by assumption. reflexivity.
  - assert (G0 := R0 gl (or_introl eq_refl)). assert (G := R gl (or_introl eq_refl)). destruct (Hx gl (or_introl eq_refl)) as [B0 B].
    specialize (R0 pl (or_intror (or_introl eq_refl))). specialize (R pl (or_intror (or_introl eq_refl))). destruct (Hx pl (or_intror (or_introl eq_refl))) as [A0 A].
    assert (E : (idx L0 gl =? idx L0 pl)%Z = (idx L gl =? idx L pl)%Z) by (rewrite !idx_eqb by assumption; reflexivity).
    split; cbn [d_score d_iou d_prev d_gt d_pd d_gl d_pl d_datum]; try reflexivity; try apply M; try exact E.
    + rewrite !label_match_small by (cbn; lia). exact E.
    + intros _. rewrite !idx_eqb by assumption. reflexivity.
Qed.

Lemma rank_table_dsort unit t : rank_table unit (dsort t) = rank_table unit t.
Proof. rewrite !rank_table_annot. f_equal. f_equal. apply dsort_idem. Qed.

Section Counts.
  Variables (a b : nat) (dt l0 l1 eps : Z).
  Lemma labelled_score r r' : labelled a b dt l0 l1 r r' -> d_score r = d_score r'.
  Proof. intros (H & _). apply (tw_score _ _ _ _ _ _ _ H). Qed.
  Lemma labelled_hit t r r' : labelled a b dt l0 l1 r r' -> tp_outer eps t r = tp_outer eps t r'.
  Proof.
    intros (H & _). unfold tp_outer, gt_and_match, iou_mask.
    rewrite (tw_score _ _ _ _ _ _ _ H), (tw_iou _ _ _ _ _ _ _ H), (tw_prev _ _ _ _ _ _ _ H), (tw_match _ _ _ _ _ _ _ H), (tw_gt _ _ _ _ _ _ _ H), moved_nonneg. reflexivity.
  Qed.
  Lemma labelled_tp t s r r' : labelled a b dt l0 l1 r r' -> tp_inner eps t s r = tp_inner eps t s r'.
  Proof. intros H. unfold tp_inner. rewrite (labelled_hit t r r' H), (labelled_score r r' H). reflexivity. Qed.
  Lemma labelled_fp t s r r' : labelled a b dt l0 l1 r r' -> fp_inner eps t s r = fp_inner eps t s r'.
  Proof.
    intros (H & _). unfold fp_inner, fp_outer, gt_and_match, iou_mask.
    rewrite (tw_score _ _ _ _ _ _ _ H), (tw_iou _ _ _ _ _ _ _ H), (tw_prev _ _ _ _ _ _ _ H), (tw_match _ _ _ _ _ _ _ H), (tw_gt _ _ _ _ _ _ _ H), moved_nonneg. reflexivity.
  Qed.
End Counts.

(* ------------------------------------------------------------------ *)
(** * Counting datum by datum *)

Lemma list_sum_nat_none {A} (f : A -> nat) l : (forall x, In x l -> f x = 0) -> list_sum_nat (map f l) = 0.
Proof.
  induction l as [|y l IH]; intros H; [reflexivity|]. change (f y + list_sum_nat (map f l) = 0). rewrite (H y) by (left; reflexivity). rewrite IH; [reflexivity|].
  intros x Hx. apply H. right. exact Hx.
Qed.
Lemma list_sum_nat_at {A} (f : nat * A -> nat) l x0 : NoDup (map fst l) -> In x0 l ->
  list_sum_nat (map (fun x => if Nat.eqb (fst x) (fst x0) then f x else 0) l) = f x0.
Proof.
  induction l as [|y l IH]; intros Hn; [intros []|]; intros [->|Hin]; inversion Hn as [|? ? N1 N2]; subst; cbn [map];
  match goal with |- list_sum_nat (?a :: ?b) = _ => change (a + list_sum_nat b = f x0) end.
  - rewrite Nat.eqb_refl. rewrite list_sum_nat_none; [lia|]. intros x Hx. destruct (Nat.eqb_spec (fst x) (fst x0)) as [E|]; [|reflexivity].
    exfalso. apply N1. rewrite <- E. apply in_map. exact Hx.
  - destruct (Nat.eqb_spec (fst y) (fst x0)) as [E|].
    + exfalso. apply N1. rewrite E. apply in_map. exact Hin.
    + cbn. apply IH; assumption.
Qed.
Lemma countb_by_datum sel ds (P : drow -> bool) rows : (forall r, In r rows -> exists i d, nth_error ds i = Some d /\ d_datum r = Z.of_nat i) ->
  countb P (filter (sel_rows ds sel) rows)
  = list_sum_nat (map (fun id => if sel (snd id) then countb P (filter (of_datum (Z.of_nat (fst id))) rows) else 0) (numbered ds)).
Proof.
  induction rows as [|r rows IH]; intros H.
  - cbn. symmetry. apply list_sum_nat_none. intros x _. destruct (sel (snd x)); reflexivity.
  - destruct (H r (or_introl eq_refl)) as (i & d & Hi & Ed).
    assert (Hd := IH (fun r' Hr' => H r' (or_intror Hr'))).
    assert (Es : sel_rows ds sel r = sel d) by (apply (sel_rows_selects ds sel r i d Ed Hi)).
    set (c := if sel d && P r then 1 else 0).
    assert (E1 : countb P (filter (sel_rows ds sel) (r :: rows)) = c + countb P (filter (sel_rows ds sel) rows)).
    { cbn [filter]. rewrite Es. unfold c. destruct (sel d); cbn [andb]; [|reflexivity]. unfold countb. cbn. destruct (P r); reflexivity. }
    rewrite E1, Hd.
    assert (E2 : c = list_sum_nat (map (fun x => if Nat.eqb (fst x) i then (if sel (snd x) && P r then 1 else 0) else 0) (numbered ds))).
    { symmetry. apply (list_sum_nat_at (fun x => if sel (snd x) && P r then 1 else 0) (numbered ds) (i, d)); [apply DetMatchingProofs.numbered_NoDup|apply numbered_In; exact Hi]. }
    rewrite E2, <- list_sum_nat_add. apply list_sum_nat_ext. intros (j, d') Hj. cbn [fst snd filter]. unfold of_datum at 2. rewrite Ed.
    destruct (Nat.eqb_spec j i) as [->|N].
    + rewrite Z.eqb_refl. destruct (sel d'); [|reflexivity]. cbn [andb]. unfold countb. cbn [filter]. destruct (P r); reflexivity.
    + rewrite (proj2 (Z.eqb_neq _ _)) by lia. destruct (sel d'); reflexivity.
Qed.

(* rows that all belong to one datum, spread over the datums *)
Lemma rows_by_datum sel ds (rows : list drow) : (forall r, In r rows -> exists i d, nth_error ds i = Some d /\ d_datum r = Z.of_nat i) ->
  (forall r r', In r rows -> In r' rows -> sel_rows ds sel r = true -> sel_rows ds sel r' = true -> d_datum r = d_datum r') ->
  filter (sel_rows ds sel) rows
  = flat_map (fun id => if sel (snd id) then filter (of_datum (Z.of_nat (fst id))) rows else []) (numbered ds).
Proof.
  intros H1 H2. destruct (filter (sel_rows ds sel) rows) as [|r0 u] eqn:E.
  - symmetry. assert (X : forall l, (forall x, In x l -> In x (numbered ds)) -> flat_map (fun id => if sel (snd id) then filter (of_datum (Z.of_nat (fst id))) rows else []) l = []).
    { induction l as [|(j, d) l IH]; intros Hl; [reflexivity|]. cbn [flat_map fst snd]. rewrite IH by (intros x Hx; apply Hl; right; exact Hx). rewrite app_nil_r.
      destruct (sel d) eqn:Sd; [|reflexivity]. apply filter_none. intros r Hr. destruct (of_datum (Z.of_nat j) r) eqn:O; [|reflexivity]. exfalso.
      unfold of_datum in O. apply Z.eqb_eq in O. assert (Hj : nth_error ds j = Some d) by (apply numbered_In, Hl; left; reflexivity).
      assert (In r (filter (sel_rows ds sel) rows)) as I; [|rewrite E in I; destruct I]. apply filter_In. split; [exact Hr|].
      rewrite (sel_rows_selects ds sel r j d O Hj). exact Sd. }
    apply X. auto.
  - assert (H0 : In r0 (filter (sel_rows ds sel) rows)) by (rewrite E; left; reflexivity). apply filter_In in H0. destruct H0 as [Hr0 S0].
    destruct (H1 r0 Hr0) as (i & d & Hi & Ed). rewrite <- E.
    assert (F : forall j d', nth_error ds j = Some d' -> sel d' = true -> filter (of_datum (Z.of_nat j)) rows = if Nat.eqb j i then filter (sel_rows ds sel) rows else []).
    { intros j d' Hj Sj. destruct (Nat.eqb_spec j i) as [->|N].
      - apply filter_ext_in. intros r Hr. destruct (of_datum (Z.of_nat i) r) eqn:O.
        + unfold of_datum in O. apply Z.eqb_eq in O. symmetry. rewrite (sel_rows_selects ds sel r i d' O Hj). exact Sj.
        + symmetry. destruct (sel_rows ds sel r) eqn:Sr; [|reflexivity]. exfalso. unfold of_datum in O. apply Z.eqb_neq in O. apply O.
          rewrite <- Ed. apply H2; assumption.
      - apply filter_none. intros r Hr. destruct (of_datum (Z.of_nat j) r) eqn:O; [|reflexivity]. exfalso. unfold of_datum in O. apply Z.eqb_eq in O.
        assert (Sr : sel_rows ds sel r = true) by (rewrite (sel_rows_selects ds sel r j d' O Hj); exact Sj).
        assert (X := H2 r r0 Hr Hr0 Sr S0). lia. }
    assert (Sd : sel d = true) by (rewrite <- (sel_rows_selects ds sel r0 i d Ed Hi); exact S0).
    assert (G : forall l, (forall x, In x l -> In x (numbered ds)) -> NoDup (map fst l) ->
      flat_map (fun id => if sel (snd id) then filter (of_datum (Z.of_nat (fst id))) rows else []) l
      = if existsb (Nat.eqb i) (map fst l) then filter (sel_rows ds sel) rows else []).
    { induction l as [|(j, d') l IH]; intros Hl Hn; [reflexivity|]. cbn [map fst] in Hn. inversion Hn as [|? ? N1 N2]; subst. cbn [flat_map map fst snd existsb].
      rewrite IH by (try exact N2; intros x Hx; apply Hl; right; exact Hx).
      assert (Hj : nth_error ds j = Some d') by (apply numbered_In, Hl; left; reflexivity).
      destruct (Nat.eqb_spec i j) as [<-|N].
      - cbn [orb]. assert (d' = d) by congruence. subst d'. rewrite Sd, (F i d Hi Sd), Nat.eqb_refl.
        destruct (existsb (Nat.eqb i) (map fst l)) eqn:X; [|apply app_nil_r]. exfalso. apply existsb_exists in X. destruct X as (k & K1 & K2).
        apply Nat.eqb_eq in K2. subst k. contradiction.
      - cbn [orb]. destruct (sel d') eqn:Sj; [|reflexivity]. rewrite (F j d' Hj Sj). destruct (Nat.eqb_spec j i); [congruence|]. reflexivity. }
    rewrite G by (auto; apply DetMatchingProofs.numbered_NoDup). symmetry.
    assert (existsb (Nat.eqb i) (map fst (numbered ds)) = true) as ->; [|reflexivity]. apply existsb_exists. exists i. split; [|apply Nat.eqb_refl].
    apply in_map_iff. exists (i, d). split; [reflexivity|]. apply numbered_In. exact Hi.
Qed.

(* ------------------------------------------------------------------ *)
(** * The counts of an evaluator, image by image *)

Definition image_tp (eps unit t s : Z) (v : string) (d : detection) : nat := countb (tp_inner eps t s) (image_ranked eps unit d v).
Definition image_fp (eps unit t s : Z) (v : string) (d : detection) : nat := countb (fp_inner eps t s) (image_ranked eps unit d v).
(* scores of the ranked predictions and whether they hit, best first *)
Definition image_hits (eps unit t : Z) (v : string) (d : detection) : list (Z * bool) :=
  map (fun r => (d_score r, tp_outer eps t r)) (image_ranked eps unit d v).

Section End_.
  Variables (eps unit : Z) (ds : list detection).
  Hypothesis Hu : (0 <= unit)%Z.
  Hypothesis Hin : det_input unit ds.
  Variables (sel : detection -> bool) (datums : drow -> bool) (e : deval).
  Hypothesis Hsel : det_selects ds datums sel.
  Hypothesis He : det_evaluator eps unit ds e.
  Hypothesis Hfew : few_det_labels ds.
  Variables (v : string) (vi : nat).
  Hypothesis Hv : label_no e v vi.

  Notation R := (concat (de_ranked e)).
  Notation rows := (filter (with_label (Z.of_nat vi)) R).

  Lemma end_rows_datum r : In r R -> exists i d, nth_error ds i = Some d /\ d_datum r = Z.of_nat i.
  Proof.
    intros Hr. destruct (end_facts eps unit ds Hin e He) as (L & Hst & HR & _).
    destruct (main_source unit (de_detailed e) R HR r Hr) as (r0 & H0 & E). apply strip_fields in E. destruct E as (E & _).
    destruct (stored_datum eps unit ds L (de_detailed e) Hin Hst r0 H0) as (i & d & Hi & Ed). exists i, d. split; [exact Hi|]. congruence.
  Qed.

  Lemma image_end_rows i d : nth_error ds i = Some d -> exists a b,
    Forall2 (labelled a b (Z.of_nat i) (idx (own_labels eps d v) v) (Z.of_nat vi)) (image_ranked eps unit d v) (filter (of_datum (Z.of_nat i)) rows).
  Proof.
    intros Hi. destruct (stored_image eps unit ds Hin e He) as (L & Hst & B & Hrows).
    destruct (end_facts eps unit ds Hin e He) as (L2 & Hst2 & HR & _ & _ & Hf & _). specialize (Hf Hfew).
    assert (L2 = L) by (destruct Hst as (l1 & E1 & <- & _), Hst2 as (l2 & E2 & <- & _); congruence). subst L2. clear Hst2.
    exists (gts_before ds i), (pds_before ds i). set (a := gts_before ds i) in *. set (b := pds_before ds i) in *.
    apply B in Hv. assert (Ev : idx L v = Z.of_nat vi) by (unfold idx; rewrite Hv; reflexivity).
    assert (Hvin : In v L) by (apply index_of_nth in Hv; apply (nth_error_In _ _ Hv)).
    assert (Hd : In d ds) by (apply (nth_error_In _ _ Hi)).
    assert (Hw : forall x w, In x (items eps d) -> In w (item_labels x) -> In w L).
    { intros x w Hx Hw. destruct (stored_loaded eps unit ds L _ Hin Hst) as (l & Hl & <- & _). apply (ld_labels _ _ _ Hl). exists d, x.
      split; [exact Hd|]. split; [|exact Hw]. apply items_In in Hx; [exact Hx|].
      assert (X := input_labels_ok unit ds Hin). rewrite Forall_forall in X. exact (X d Hd). }
    assert (F0 : few (own_labels eps d v)).
    { unfold few in *. assert (length (own_labels eps d v) <= length L); [|lia]. apply NoDup_incl_length; [apply NoDup_nodup|].
      intros w Hw'. apply nodup_In in Hw'. destruct Hw' as [<-|Hw']; [exact Hvin|].
      apply in_flat_map in Hw'. destruct Hw' as (x & Hx & Hw'). apply (Hw x w Hx Hw'). }
    rewrite filter_comm, (ranked_by_datum unit (de_detailed e) R (Z.of_nat i) (stored_aligned eps ds L _ Hst) (stored_pds_in_one eps unit ds L _ Hin Hst) HR).
    rewrite (Hrows i d Hi). fold a b. rewrite <- Ev. unfold image_ranked.
    rewrite rank_table_dsort. apply twin_rank_table. apply item_rows_twin; auto.
    - apply own_labels_v.
    - intros x w Hx Hw'. split; [apply (own_labels_x eps d v x w Hx Hw')|apply (Hw x w Hx Hw')].
  Qed.

  Lemma image_end_count (P : drow -> bool) : (forall a b dt l0 l1 r r', labelled a b dt l0 l1 r r' -> P r = P r') ->
    countb (fun r => P r && (d_pl r =? Z.of_nat vi)%Z) (filter (sel_rows ds sel) R)
    = list_sum_nat (map (fun d => if sel d then countb P (image_ranked eps unit d v) else 0) ds).
  Proof.
    intros HP.
    assert (E : countb (fun r => P r && (d_pl r =? Z.of_nat vi)%Z) (filter (sel_rows ds sel) R) = countb P (filter (sel_rows ds sel) rows)).
    { unfold countb. rewrite (filter_comm _ _ R). rewrite !filter_filter. f_equal. apply filter_ext. intros r. unfold with_label.
      destruct (P r), (d_pl r =? Z.of_nat vi)%Z, (sel_rows ds sel r); reflexivity. }
    rewrite E, countb_by_datum by (intros r Hr; apply filter_In in Hr; apply end_rows_datum; tauto).
    rewrite <- (numbered_sum (fun d => if sel d then countb P (image_ranked eps unit d v) else 0)).
    apply list_sum_nat_ext. intros (i, d) Hid. cbn [fst snd]. apply numbered_In in Hid. destruct (sel d); [|reflexivity].
    destruct (image_end_rows i d Hid) as (a & b & F). symmetry. apply (Forall2_countb _ _ _ _ _ F). intros r r'. apply HP.
  Qed.

  Lemma image_end_counts t s : (0 < t)%Z ->
    rep_tp eps e datums t s (Z.of_nat vi) = list_sum_nat (map (fun d => if sel d then image_tp eps unit t s v d else 0) ds) /\
    rep_fp eps e datums t s (Z.of_nat vi) = list_sum_nat (map (fun d => if sel d then image_fp eps unit t s v d else 0) ds).
  Proof.
    intros Ht. unfold rep_tp, rep_fp. rewrite (counts_flat eps unit ds Hin sel datums Hsel e Hu He Hfew t s (Z.of_nat vi) Ht).
    destruct (end_facts eps unit ds Hin e He) as (L & Hst & HR & _ & B & Hf & _).
    rewrite counts_simple by (apply (tp_keys_NoDup eps _ (main_filter_ok eps unit ds L _ _ Hu Hin Hst HR (Hf Hfew) sel _ (sel_rows_selects ds sel)) t s Ht)).
    cbn [dc_tp dc_fp]. split; apply image_end_count; intros a b dt l0 l1 r r' H; [eapply labelled_tp|eapply labelled_fp]; exact H.
  Qed.

  (* ranked predictions of the label with their outcomes *)
  Definition end_hits (t : Z) : list (Z * bool) := map (fun r => (d_score r, tp_outer eps t r)) (filter (sel_rows ds sel) rows).

  Lemma end_hits_sorted t : StronglySorted (fun a b => (fst b <= fst a)%Z) (end_hits t).
  Proof.
    destruct (end_facts eps unit ds Hin e He) as (L & Hst & HR & _ & B & Hf & _).
    assert (X := ro_sorted _ (main_filter_ok eps unit ds L _ _ Hu Hin Hst HR (Hf Hfew) sel _ (sel_rows_selects ds sel))).
    apply sorted_by_score in X. unfold end_hits. rewrite filter_comm. apply StronglySorted_map. apply StronglySorted_filter. exact X.
  Qed.

  Lemma row_scored i d r : nth_error ds i = Some d -> In r rows -> d_datum r = Z.of_nat i -> scores_at v (d_score r) d = true.
  Proof.
    intros Hi Hr Ed. apply filter_In in Hr. destruct Hr as [Hr Hl]. unfold with_label in Hl. apply Z.eqb_eq in Hl.
    destruct (end_facts eps unit ds Hin e He) as (L & Hst & HR & _ & B & _). assert (Hv' := Hv). apply B in Hv'.
    destruct (ranked_In unit _ _ r HR Hr) as (tb & r0 & Htb & Hr0 & E & Hpd). apply strip_fields in E.
    assert (H0 : In r0 (concat (de_detailed e))) by (apply in_concat; eauto). apply (stored_rows eps unit ds L _ Hin Hst) in H0.
    destruct E as (E1 & E2 & E3 & E4 & E5 & E6 & E7).
    assert (H1 : (0 <= d_pd r0)%Z).
    { assert (G : (0 <= d_pl r0)%Z) by lia. clear - H0 G. destruct H0; cbn [d_pd d_pl] in *; try (exact G); unfold pd_id; lia. }
    destruct (described_pd _ _ _ _ H0 H1) as (j & d' & p & pa & k & pl & s & pi & Hj & Hp & Hk & Hs & Hpi & D1 & _ & D3 & D4 & _).
    assert (j = i) by lia. subst j. assert (d' = d) by congruence. subst d'. assert (pi = vi) by lia. subst pi.
    assert (pl = v) by (apply (index_of_inj pl v L vi); assumption). subst pl.
    unfold scores_at. apply existsb_exists. exists pa. split; [apply (nth_error_In _ _ Hp)|]. apply existsb_exists. exists (v, s).
    split; [|cbn; rewrite String.eqb_refl; apply Z.eqb_eq; congruence]. apply (nth_error_In _ k). apply nth_combine; assumption.
  Qed.
  Lemma image_scored t i d c h : nth_error ds i = Some d -> In (c, h) (image_hits eps unit t v d) -> scores_at v c d = true.
  Proof.
    intros Hi Hx. apply in_map_iff in Hx. destruct Hx as (r & E & Hr). injection E as <- _.
    destruct (image_end_rows i d Hi) as (a & b & F). 
    assert (X : exists r', In r' (filter (of_datum (Z.of_nat i)) rows) /\ labelled a b (Z.of_nat i) (idx (own_labels eps d v) v) (Z.of_nat vi) r r').
    { revert Hr. induction F as [|x y l l' Hxy F IH]; [intros []|]. intros [<-|Hr]; [exists y; split; [left; reflexivity|exact Hxy]|].
      destruct (IH Hr) as (r' & A & B). exists r'. split; [right; exact A|exact B]. }
    destruct X as (r' & Hr' & Hrr). rewrite (labelled_score _ _ _ _ _ r r' Hrr). apply filter_In in Hr'. destruct Hr' as [Hr' O]. unfold of_datum in O. apply Z.eqb_eq in O.
    apply (row_scored i d r' Hi Hr' O).
  Qed.

  Lemma end_hits_class t c : apart sel v ds ->
    filter (fun x => (fst x =? c)%Z) (end_hits t)
    = flat_map (fun d => if sel d then filter (fun x => (fst x =? c)%Z) (image_hits eps unit t v d) else []) ds.
  Proof.
    intros Hap. unfold end_hits. rewrite filter_map_comm. cbn [fst]. rewrite filter_comm.
    rewrite rows_by_datum.
    - rewrite flat_map_concat_map, concat_map, map_map, <- flat_map_concat_map.
      assert (G : forall l, (forall x, In x l -> In x (numbered ds)) ->
        flat_map (fun x => map (fun r => (d_score r, tp_outer eps t r)) (if sel (snd x) then filter (of_datum (Z.of_nat (fst x))) (filter (fun r => (d_score r =? c)%Z) rows) else [])) l
        = flat_map (fun d => if sel d then filter (fun x => (fst x =? c)%Z) (image_hits eps unit t v d) else []) (map snd l)).
      { induction l as [|(i, d) l IH]; intros Hl; [reflexivity|]. cbn [flat_map map fst snd]. rewrite IH by (intros x Hx; apply Hl; right; exact Hx). f_equal.
        destruct (sel d); [|reflexivity]. assert (Hi : nth_error ds i = Some d) by (apply numbered_In, Hl; left; reflexivity).
        destruct (image_end_rows i d Hi) as (a & b & F). unfold image_hits. rewrite filter_map_comm. cbn [fst]. rewrite filter_comm. symmetry.
        apply (Forall2_map_eq (labelled a b (Z.of_nat i) (idx (own_labels eps d v) v) (Z.of_nat vi))).
        - apply Forall2_filter; [exact F|]. intros r r' _ _ Hr. rewrite (labelled_score _ _ _ _ _ r r' Hr). reflexivity.
        - intros r r' Hr. rewrite (labelled_score _ _ _ _ _ r r' Hr), (labelled_hit _ _ _ _ _ eps t r r' Hr). reflexivity. }
      rewrite G by auto. f_equal. unfold numbered. clear. generalize 0. induction ds as [|x l IH]; intros k; [reflexivity|]. cbn. f_equal. apply IH.
    - intros r Hr. apply filter_In in Hr. destruct Hr as [Hr _]. apply filter_In in Hr. apply end_rows_datum. tauto.
    - intros r r' Hr Hr' Sr Sr'. apply filter_In in Hr, Hr'. destruct Hr as [Hr Cr], Hr' as [Hr' Cr']. apply Z.eqb_eq in Cr, Cr'.
      destruct (end_rows_datum r) as (i & d & Hi & Ed); [apply filter_In in Hr; tauto|].
      destruct (end_rows_datum r') as (i' & d' & Hi' & Ed'); [apply filter_In in Hr'; tauto|].
      assert (S1 := row_scored i d r Hi Hr Ed). assert (S2 := row_scored i' d' r' Hi' Hr' Ed'). rewrite Cr in S1. rewrite Cr' in S2.
      rewrite (sel_rows_selects ds sel r i d Ed Hi) in Sr. rewrite (sel_rows_selects ds sel r' i' d' Ed' Hi') in Sr'.
      assert (i = i'); [|congruence]. apply (one_of _ ds i i' d d' (Hap c) Hi Hi'); rewrite ?Sr, ?Sr', ?S1, ?S2; reflexivity.
  Qed.

  Lemma end_hits_ap t : (0 < t)%Z -> (rep_ap eps e datums t (Z.of_nat vi) == ap_spec (gts_with sel ds v) (map snd (end_hits t)))%Q.
  Proof.
    intros Ht. destruct (end_facts eps unit ds Hin e He) as (L & Hst & HR & _ & B & Hf & _). assert (Hv' := Hv). apply B in Hv'.
    specialize (Hf Hfew). assert (Hids := sel_rows_selects ds sel). set (ids := sel_rows ds sel) in *.
    assert (Eg := end_gts eps unit ds Hin sel datums Hsel e He v vi Hv).
    assert (Eh : map snd (end_hits t) = map (tp_outer eps t) (filter (fun r => (d_pl r =? Z.of_nat vi)%Z) (filter ids R))).
    { unfold end_hits. rewrite map_map, filter_comm. reflexivity. }
    rewrite Eh. unfold rep_ap.
    rewrite (average_precision_ext _ (fun b => fst (upd_curve (rep_gts e datums) (fst (running eps t run0 (filter ids R))) curve0 (Z.of_nat vi) b))).
    - rewrite <- Eg. apply ap_is_spec. rewrite Eg. apply (hits_bound eps unit ds L _ R Hu Hin Hst HR Hf sel ids Hids v vi Hv' t Ht).
    - intros b. unfold rep_curve. rewrite (curve_flat eps unit ds Hin sel datums Hsel e Hu He Hfew). reflexivity.
  Qed.

  Lemma end_hits_curve t k q : (0 < t)%Z -> nth_error (rep_pr_curve eps e datums t (Z.of_nat vi)) k = Some q ->
    (q == interpolated (gts_with sel ds v) (map snd (end_hits t)) k)%Q.
  Proof.
    intros Ht Hq. destruct (end_facts eps unit ds Hin e He) as (L & Hst & HR & _ & B & Hf & _). assert (Hv' := Hv). apply B in Hv'.
    specialize (Hf Hfew). set (ids := sel_rows ds sel). assert (Hids := sel_rows_selects ds sel). fold ids in Hids.
    assert (Hb := hits_bound eps unit ds L _ R Hu Hin Hst HR Hf sel ids Hids v vi Hv' t Ht).
    assert (Eg := end_gts eps unit ds Hin sel datums Hsel e He v vi Hv). rewrite <- Eg in *.
    assert (Ec : forall b, rep_curve eps e datums t (Z.of_nat vi) b
      = fst (upd_curve (rep_gts e datums) (fst (running eps t run0 (filter ids R))) curve0 (Z.of_nat vi) b)).
    { intros b. unfold rep_curve. rewrite (curve_flat eps unit ds Hin sel datums Hsel e Hu He Hfew). reflexivity. }
    assert (Eh : map snd (end_hits t) = map (tp_outer eps t) (filter (fun r => (d_pl r =? Z.of_nat vi)%Z) (filter ids R))).
    { unfold end_hits. rewrite map_map, filter_comm. reflexivity. }
    rewrite Eh. destruct (pr_curve_nth eps e datums t (Z.of_nat vi) k q Hq) as (Hk & A).
    apply same_upper_bounds. intros x. rewrite A, (interpolated_le eps t (rep_gts e datums) (Z.of_nat vi) _ Hb).
    split; intros [X1 X2]; (split; [exact X1|]); intros b Hb'; [rewrite <- Ec|rewrite Ec]; apply X2; exact Hb'.
  Qed.
End End_.
