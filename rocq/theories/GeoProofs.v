(* Proofs about geometric input of object detection. *)
From Verif Require Import Prelude Counting CacheModel ClsModel FlowModel DetModel DetSpec DetGeomProofs DetFlowModel GeoModel GeoSpec.
From Coq Require Import String QArith Qminmax Lqa Lia.
Local Open Scope nat_scope.
Local Open Scope list_scope.

Lemma rounding_eq unit rnd : rounding unit rnd -> forall a b, (a == b)%Q -> rnd a = rnd b.
Proof. intros (H & _) a b E. apply Z.le_antisymm; apply H; rewrite E; apply Qle_refl. Qed.
Lemma rounding_range unit rnd : rounding unit rnd -> forall q, (0 <= q <= 1)%Q -> (0 <= rnd q <= unit)%Z.
Proof. intros (H & H0 & H1) q [A B]. rewrite <- H0 at 1. rewrite <- H1. split; apply H; assumption. Qed.
Lemma rounding_unit unit rnd : rounding unit rnd -> (0 <= unit)%Z.
Proof. intros (H & H0 & H1). rewrite <- H0, <- H1. apply H. discriminate. Qed.

(* ------------------------------------------------------------------ *)
Lemma iou_list_like {G H} (R : G -> H -> Prop) (f : G -> G -> Q) (f' : H -> H -> Q) (rnd : Q -> Z) :
  (forall a b a' b', R a a' -> R b b' -> rnd (f a b) = rnd (f' a' b')) ->
  forall gts gts' pds pds', Forall2 R gts gts' -> Forall2 R pds pds' ->
  map rnd (iou_list f gts pds) = map rnd (iou_list f' gts' pds').
Proof.
  intros Hf gts gts' pds pds' Hg Hp. unfold iou_list. induction Hp as [|p p' pds pds' Hpp Hp IH]; [reflexivity|]. cbn [map List.concat].
  rewrite !map_app, IH. f_equal. clear IH. induction Hg as [|g g' gts gts' Hgg Hg IH]; [reflexivity|]. cbn [map]. rewrite IH. f_equal. apply Hf; assumption.
Qed.
Lemma like_anns {G H} (R : G -> H -> Prop) l l' : Forall2 (like_shape R) l l' -> map sh_ann l' = map sh_ann l.
Proof. induction 1 as [|s s' l l' [E _] _ IH]; [reflexivity|]. cbn. rewrite IH, E. reflexivity. Qed.
Lemma like_shapes {G H} (R : G -> H -> Prop) l l' : Forall2 (like_shape R) l l' -> Forall2 R (map sh_shape l) (map sh_shape l').
Proof. induction 1 as [|s s' l l' [_ E] _ IH]; constructor; assumption. Qed.
Lemma Forall2_len {A B} (R : A -> B -> Prop) l l' : Forall2 R l l' -> List.length l = List.length l'.
Proof. induction 1; cbn; congruence. Qed.
Lemma with_ious_like {G H} (R : G -> H -> Prop) (f : G -> G -> Q) (f' : H -> H -> Q) (rnd : Q -> Z) d d' :
  (forall a b a' b', R a a' -> R b b' -> rnd (f a b) = rnd (f' a' b')) -> like_image R d d' ->
  with_ious rnd f d = with_ious rnd f' d'.
Proof.
  intros Hf (Eu & Hg & Hp). unfold with_ious. rewrite (like_anns _ _ _ Hg), (like_anns _ _ _ Hp), Eu, (Forall2_len _ _ _ Hg).
  rewrite (iou_list_like R f f' rnd Hf _ _ _ _ (like_shapes _ _ _ Hg) (like_shapes _ _ _ Hp)). reflexivity.
Qed.

(* the stored IoU of prediction p and ground truth g *)
Lemma with_ious_at {G} (rnd : Q -> Z) (f : G -> G -> Q) d p g : t_iou (with_ious rnd f d) p g =
  match nth_error (gd_pds d) p, nth_error (gd_gts d) g with Some sp, Some sg => rnd (f (sh_shape sg) (sh_shape sp)) | _, _ => 0%Z end.
Proof.
  cbn [t_iou with_ious]. assert (E : forall c i j l, reshaped (map rnd l) c i j = option_map rnd (reshaped l c i j)).
  { intros c i j l. unfold reshaped. destruct (Nat.ltb j c); [apply nth_error_map|reflexivity]. }
  rewrite E. assert (L : List.length (gd_gts d) = List.length (map sh_shape (gd_gts d))) by (rewrite map_length; reflexivity).
  rewrite L, iou_matrix, !nth_error_map. destruct (nth_error (gd_pds d) p), (nth_error (gd_gts d) g); reflexivity.
Qed.
Lemma with_ious_input {G} unit rnd (f : G -> G -> Q) ds : rounding unit rnd -> Forall plain_image ds ->
  (forall d sg sp, In d ds -> In sg (gd_gts d) -> In sp (gd_pds d) -> (0 <= f (sh_shape sg) (sh_shape sp) <= 1)%Q) ->
  det_input unit (map (with_ious rnd f) ds).
Proof.
  intros Hr Hd Hf. unfold det_input. rewrite Forall_forall in *. intros x Hx. apply in_map_iff in Hx. destruct Hx as (d & <- & Hin).
  destruct (Hd d Hin) as [Hg Hp]. split; [|split].
  - unfold det_ok. cbn [t_gts t_pds with_ious]. rewrite !andb_true_iff, !forallb_forall. split; [split|].
    + intros a Ha. apply in_map_iff in Ha. destruct Ha as (s & <- & Hs). apply Hg, Hs.
    + intros a Ha. apply in_map_iff in Ha. destruct Ha as (s & <- & Hs). apply Hp, Hs.
    + intros a Ha. apply in_map_iff in Ha. destruct Ha as (s & <- & Hs). apply Nat.eqb_eq. apply Hp, Hs.
  - intros a Ha. cbn [t_gts with_ious] in Ha. apply in_map_iff in Ha. destruct Ha as (s & <- & Hs). apply Hg, Hs.
  - intros p g. rewrite with_ious_at. assert (U := rounding_unit _ _ Hr).
    destruct (nth_error (gd_pds d) p) as [sp|] eqn:Ep; [|lia]. destruct (nth_error (gd_gts d) g) as [sg|] eqn:Eg; [|lia].
    apply (rounding_range _ _ Hr). apply (Hf d); [exact Hin|apply (nth_error_In _ _ Eg)|apply (nth_error_In _ _ Ep)].
Qed.

(* ------------------------------------------------------------------ *)
(** * Masks *)
Lemma same_dims_spec ms : same_dims ms = true <-> (ms = [] \/ exists dims, 2 <= List.length dims /\ forall m, In m ms -> gm_dims m = dims).
Proof.
  destruct ms as [|m t]; cbn [same_dims]; [split; [left; reflexivity|reflexivity]|]. rewrite andb_true_iff, forallb_forall, Nat.leb_le. split.
  - intros [H L]. right. exists (gm_dims m). split; [exact L|]. intros x [<-|Hx]; [reflexivity|]. specialize (H x Hx).
    destruct (list_eq_dec Nat.eq_dec (gm_dims x) (gm_dims m)); [assumption|discriminate].
  - intros [H|(dims & L & H)]; [discriminate|]. rewrite (H m (or_introl eq_refl)). split; [|exact L]. intros x Hx.
    destruct (list_eq_dec Nat.eq_dec (gm_dims x) dims) as [|N]; [reflexivity|]. exfalso. apply N, H. right. exact Hx.
Qed.
Lemma stackable_spec d : stackable d = true <-> (gd_gts d = [] \/ gd_pds d = [] \/ one_shape d).
Proof.
  unfold stackable, one_shape. destruct (gd_gts d) as [|g gs]; [split; [left; reflexivity|reflexivity]|].
  destruct (gd_pds d) as [|p ps]; [split; [right; left; reflexivity|reflexivity]|]. rewrite same_dims_spec. split.
  - intros [H|(dims & L & H)]; [discriminate|]. right. right. exists dims. split; [exact L|]. intros s Hs. apply H. apply in_map. exact Hs.
  - intros [H|[H|(dims & L & H)]]; [discriminate|discriminate|]. right. exists dims. split; [exact L|]. intros m Hm. apply in_map_iff in Hm.
    destruct Hm as (s & <- & Hs). apply H, Hs.
Qed.
Lemma masks_fail rnd ds : masks_data rnd ds = None <->
  exists d, In d ds /\ gd_gts d <> [] /\ gd_pds d <> [] /\ ~ one_shape d.
Proof.
  unfold masks_data. destruct (forallb stackable ds) eqn:E.
  - split; [discriminate|]. intros (d & Hd & H1 & H2 & H3). rewrite forallb_forall in E. specialize (E d Hd). apply stackable_spec in E. tauto.
  - split; [intros _|reflexivity]. assert (X : exists d, In d ds /\ stackable d = false).
    { clear -E. induction ds as [|d t IH]; [discriminate|]. cbn in E. destruct (stackable d) eqn:F; [|exists d; split; [left; reflexivity|exact F]].
      destruct (IH E) as (x & Hx & Fx). exists x. split; [right; exact Hx|exact Fx]. }
    destruct X as (d & Hd & F). exists d. split; [exact Hd|]. rewrite <- not_true_iff_false, stackable_spec in F. tauto.
Qed.

Lemma masks_like {G} (f : G -> G -> Q) rnd ds ds' :
  (forall d, In d ds' -> stackable d = true) ->
  Forall2 (fun d d' => with_ious rnd f d = with_ious rnd mask_iou d') ds ds' ->
  masks_data rnd ds' = Some (map (with_ious rnd f) ds).
Proof.
  intros H F. unfold masks_data. assert (E : forallb stackable ds' = true) by (apply forallb_forall, H). rewrite E. f_equal. clear H E.
  induction F as [|d d' ds ds' Hd F IH]; [reflexivity|]. cbn. rewrite IH, Hd. reflexivity.
Qed.

(* counting pixels of drawn boxes *)
Lemma countb_prod {A B} (P : A -> bool) (Q : B -> bool) la lb :
  countb (fun x => P (fst x) && Q (snd x)) (list_prod la lb) = countb P la * countb Q lb.
Proof.
  induction la as [|a la IH]; [reflexivity|]. cbn [list_prod]. unfold countb in *. rewrite filter_app, app_length, IH. cbn [filter].
  assert (E : List.length (filter (fun x : A * B => P (fst x) && Q (snd x)) (map (fun y => (a, y)) lb)) = if P a then List.length (filter Q lb) else 0).
  { clear. induction lb as [|b lb IH]; [destruct (P a); reflexivity|]. cbn [map filter fst snd]. destruct (P a) eqn:Pa; cbn [andb].
    - destruct (Q b); cbn [List.length]; rewrite IH; reflexivity.
    - exact IH. }
  rewrite E. destruct (P a); cbn [List.length]; lia.
Qed.
Definition within (a b i : nat) : bool := Nat.leb a i && Nat.ltb i b.
Lemma count_within a b n : a <= b <= n -> countb (within a b) (seq 0 n) = b - a.
Proof.
  intros H. replace n with (a + (b - a) + (n - b)) by lia. rewrite seq_app, seq_app. unfold countb. rewrite !filter_app, !app_length. cbn [plus].
  assert (E1 : filter (within a b) (seq 0 a) = []).
  { assert (X : forall l, (forall i, In i l -> i < a) -> filter (within a b) l = []).
    { induction l as [|i l IH]; intros Hl; [reflexivity|]. cbn. unfold within at 1. destruct (Nat.leb_spec a i); [specialize (Hl i (or_introl eq_refl)); lia|].
      cbn. apply IH. intros j Hj. apply Hl. right. exact Hj. }
    apply X. intros i Hi. apply in_seq in Hi. lia. }
  assert (E2 : filter (within a b) (seq a (b - a)) = seq a (b - a)).
  { assert (X : forall l, (forall i, In i l -> a <= i < b) -> filter (within a b) l = l).
    { induction l as [|i l IH]; intros Hl; [reflexivity|]. cbn. unfold within at 1. specialize (Hl i (or_introl eq_refl)) as Hi.
      destruct (Nat.leb_spec a i); [|lia]. destruct (Nat.ltb_spec i b); [|lia]. cbn. f_equal. apply IH. intros j Hj. apply Hl. right. exact Hj. }
    apply X. intros i Hi. apply in_seq in Hi. lia. }
  assert (E3 : filter (within a b) (seq (a + (b - a)) (n - b)) = []).
  { assert (X : forall l, (forall i, In i l -> b <= i) -> filter (within a b) l = []).
    { induction l as [|i l IH]; intros Hl; [reflexivity|]. cbn. unfold within at 1. destruct (Nat.ltb_spec i b); [specialize (Hl i (or_introl eq_refl)); lia|].
      rewrite andb_false_r. apply IH. intros j Hj. apply Hl. right. exact Hj. }
    apply X. intros i Hi. apply in_seq in Hi. lia. }
  replace (0 + a) with a by lia. replace (0 + (a + (b - a))) with (a + (b - a)) by lia. rewrite E1, E2, E3. cbn. rewrite seq_length. lia.
Qed.
Lemma nth_prod h w y x : y < h -> x < w -> nth_error (list_prod (seq 0 h) (seq 0 w)) (y * w + x) = Some (y, x).
Proof.
  assert (G : forall a, y < h -> x < w -> nth_error (list_prod (seq a h) (seq 0 w)) (y * w + x) = Some (a + y, x)).
  { revert y. induction h as [|h IH]; intros y a Hy Hx; [lia|]. cbn [seq list_prod]. destruct y as [|y].
    - rewrite nth_error_app1 by (rewrite map_length, seq_length; lia). rewrite nth_error_map. cbn [Nat.mul plus].
      assert (E : nth_error (seq 0 w) x = Some x).
      { rewrite (nth_error_nth' _ 0) by (rewrite seq_length; exact Hx). f_equal. rewrite seq_nth by exact Hx. reflexivity. }
      rewrite E. cbn. rewrite Nat.add_0_r. reflexivity.
    - rewrite nth_error_app2 by (rewrite map_length, seq_length; lia). rewrite map_length, seq_length.
      replace (S y * w + x - w) with (y * w + x) by lia. rewrite IH by lia. f_equal. f_equal. lia. }
  intros Hy Hx. rewrite G by assumption. reflexivity.
Qed.
Lemma drawn_bits h w m x0 x1 y0 y1 : List.length (gm_bits m) = h * w ->
  (forall y x, y < h -> x < w -> (nth (y * w + x) (gm_bits m) false = true <-> (x0 <= x < x1 /\ y0 <= y < y1))) ->
  gm_bits m = map (fun q => within y0 y1 (fst q) && within x0 x1 (snd q)) (list_prod (seq 0 h) (seq 0 w)).
Proof.
  intros L H. apply (nth_ext _ _ false false).
  - rewrite map_length, prod_length, !seq_length. exact L.
  - intros i Hi. rewrite L in Hi. destruct (Nat.eq_dec w 0) as [W|W]; [subst w; lia|].
    assert (Ei : i = (i / w) * w + i mod w) by (rewrite Nat.mul_comm; apply Nat.div_mod; exact W).
    assert (Hx : i mod w < w) by (apply Nat.mod_upper_bound; exact W).
    assert (Hy : i / w < h) by (apply Nat.div_lt_upper_bound; [exact W|lia]).
    rewrite Ei. assert (N := nth_prod h w (i / w) (i mod w) Hy Hx).
    set (F := fun q : nat * nat => within y0 y1 (fst q) && within x0 x1 (snd q)).
    rewrite (nth_indep (map F _) false (F (0, 0))) by (rewrite map_length, prod_length, !seq_length; lia).
    rewrite (map_nth F), (nth_error_nth _ _ _ N). unfold F. cbn [fst snd]. apply eq_true_iff_eq. rewrite H by assumption. unfold within.
    rewrite !andb_true_iff, !Nat.leb_le, !Nat.ltb_lt. lia.
Qed.

Lemma count_between a b n : b <= n -> countb (within a b) (seq 0 n) = b - a.
Proof.
  intros H. destruct (Nat.le_gt_cases a b) as [L|L]; [apply count_within; lia|]. replace (b - a) with 0 by lia. unfold countb.
  assert (X : forall l, filter (within a b) l = []); [|rewrite X; reflexivity].
  induction l as [|i l IH]; [reflexivity|]. cbn. unfold within at 1. destruct (Nat.leb_spec a i), (Nat.ltb_spec i b); cbn; try assumption. lia.
Qed.
Lemma countb_bits {A} (f : A -> bool) l : countb (fun x => x) (map f l) = countb f l.
Proof. unfold countb. induction l as [|a l IH]; [reflexivity|]. cbn. destruct (f a); cbn; rewrite IH; reflexivity. Qed.
Lemma combine_bits {A} (f g : A -> bool) l : countb (fun p => fst p && snd p) (combine (map f l) (map g l)) = countb (fun x => f x && g x) l.
Proof. unfold countb. induction l as [|a l IH]; [reflexivity|]. cbn. destruct (f a && g a); cbn; rewrite IH; reflexivity. Qed.
Lemma qnat_minus a b : b <= a -> (qnat (a - b) == qnat a - qnat b)%Q.
Proof. intros H. unfold qnat. rewrite Nat2Z.inj_sub by exact H. unfold Qminus. rewrite <- inject_Z_opp, <- inject_Z_plus. reflexivity. Qed.
Lemma qnat_plus a b : (qnat (a + b) == qnat a + qnat b)%Q.
Proof. unfold qnat. rewrite Nat2Z.inj_add, inject_Z_plus. reflexivity. Qed.
Lemma qnat_times a b : (qnat (a * b) == qnat a * qnat b)%Q.
Proof. unfold qnat. rewrite Nat2Z.inj_mul, inject_Z_mult. reflexivity. Qed.
Lemma qnat_le a b : a <= b <-> (qnat a <= qnat b)%Q.
Proof. unfold qnat. rewrite <- Zle_Qle. lia. Qed.
Lemma qnat_side p q r s : (Qmax 0 (Qmin (qnat p) (qnat q) - Qmax (qnat r) (qnat s)) == qnat (Nat.min p q - Nat.max r s))%Q.
Proof.
  assert (E1 : (Qmin (qnat p) (qnat q) == qnat (Nat.min p q))%Q).
  { destruct (Nat.min_spec p q) as [[H ->]|[H ->]]; [apply Q.min_l|apply Q.min_r]; apply qnat_le; lia. }
  assert (E2 : (Qmax (qnat r) (qnat s) == qnat (Nat.max r s))%Q).
  { destruct (Nat.max_spec r s) as [[H ->]|[H ->]]; [apply Q.max_r|apply Q.max_l]; apply qnat_le; lia. }
  rewrite E1, E2. destruct (Nat.le_gt_cases (Nat.max r s) (Nat.min p q)) as [H|H].
  - rewrite (qnat_minus _ _ H). apply Q.max_r. apply qnat_le in H. lra.
  - replace (Nat.min p q - Nat.max r s) with 0 by lia. apply Q.max_l. assert (X : (qnat (Nat.min p q) <= qnat (Nat.max r s))%Q) by (apply qnat_le; lia).
    change (qnat 0) with 0%Q. lra.
Qed.
Lemma side_comp a b c d a' b' c' d' : (a == a' -> b == b' -> c == c' -> d == d' ->
  Qmax 0 (Qmin a b - Qmax c d) == Qmax 0 (Qmin a' b' - Qmax c' d'))%Q.
Proof. intros -> -> -> ->. reflexivity. Qed.

Theorem drawn_iou h w a b ma mb : drawn h w a ma -> drawn h w b mb -> (bbox_iou a b == mask_iou ma mb)%Q.
Proof.
  intros (_ & La & x0 & x1 & y0 & y1 & Hx & Hy & (A1 & A2 & A3 & A4) & Ha) (_ & Lb & u0 & u1 & v0 & v1 & Hu & Hv & (B1 & B2 & B3 & B4) & Hb).
  assert (Ea := drawn_bits h w ma x0 x1 y0 y1 La Ha). assert (Eb := drawn_bits h w mb u0 u1 v0 v1 Lb Hb).
  rewrite bbox_iou_eq. unfold mask_iou, bitmask_iou. rewrite Ea, Eb, !countb_bits, combine_bits, !countb_prod, !count_between by lia.
  assert (Ei : countb (fun q : nat * nat => within y0 y1 (fst q) && within x0 x1 (snd q) && (within v0 v1 (fst q) && within u0 u1 (snd q)))
      (list_prod (seq 0 h) (seq 0 w)) = (Nat.min y1 v1 - Nat.max y0 v0) * (Nat.min x1 u1 - Nat.max x0 u0)).
  { rewrite <- (count_between (Nat.max y0 v0) (Nat.min y1 v1) h), <- (count_between (Nat.max x0 u0) (Nat.min x1 u1) w), <- countb_prod by lia.
    apply countb_ext. intros [y x] _. cbn [fst snd]. apply eq_true_iff_eq. unfold within. rewrite !andb_true_iff, !Nat.leb_le, !Nat.ltb_lt. lia. }
  rewrite Ei.
  assert (Ix : (xw a b == qnat (Nat.min x1 u1 - Nat.max x0 u0))%Q).
  { unfold xw. rewrite (side_comp _ _ _ _ _ _ _ _ A2 B2 A1 B1). apply qnat_side. }
  assert (Iy : (yh a b == qnat (Nat.min y1 v1 - Nat.max y0 v0))%Q).
  { unfold yh. rewrite (side_comp _ _ _ _ _ _ _ _ A4 B4 A3 B3). apply qnat_side. }
  assert (I : (xw a b * yh a b == qnat ((Nat.min y1 v1 - Nat.max y0 v0) * (Nat.min x1 u1 - Nat.max x0 u0)))%Q).
  { rewrite Ix, Iy, qnat_times. ring. }
  apply div_where_comp; [exact I|]. rewrite I.
  assert (Aa : (area a == qnat ((y1 - y0) * (x1 - x0)))%Q).
  { unfold area. rewrite A1, A2, A3, A4, qnat_times, !qnat_minus by lia. ring. }
  assert (Ab : (area b == qnat ((v1 - v0) * (u1 - u0)))%Q).
  { unfold area. rewrite B1, B2, B3, B4, qnat_times, !qnat_minus by lia. ring. }
  rewrite Aa, Ab, qnat_minus, qnat_plus; [reflexivity|].
  assert (X : (Nat.min y1 v1 - Nat.max y0 v0) * (Nat.min x1 u1 - Nat.max x0 u0) <= (y1 - y0) * (x1 - x0)) by (apply Nat.mul_le_mono; lia).
  etransitivity; [exact X|apply Nat.le_add_r].
Qed.

Theorem drawn_data unit rnd ds ds' : rounding unit rnd -> Forall2 (fun d d' => exists h w, like_image (drawn h w) d d') ds ds' ->
  masks_data rnd ds' = Some (boxes_data rnd ds).
Proof.
  intros Hr F. apply masks_like.
  - intros d' Hd'. apply stackable_spec. right. right. clear Hr.
    assert (X : exists d, exists h w, like_image (drawn h w) d d').
    { induction F as [|x x' ds ds' Hx F IH]; [destruct Hd'|]. destruct Hd' as [->|Hd']; [exists x; exact Hx|apply IH, Hd']. }
    destruct X as (d & h & w & _ & Hg & Hp). exists [h; w]. split; [cbn; lia|]. intros s Hs. apply in_app_or in Hs.
    assert (Y : forall l l', Forall2 (like_shape (drawn h w)) l l' -> In s l' -> gm_dims (sh_shape s) = [h; w]).
    { intros l l'. induction 1 as [|y y' l l' [_ (D & _)] _ IH]; intros H; [destruct H|]. destruct H as [->|H]; [exact D|apply IH, H]. }
    destruct Hs as [Hs|Hs]; [apply (Y _ _ Hg Hs)|apply (Y _ _ Hp Hs)].
  - induction F as [|x x' ds ds' (h & w & Hx) F IH]; constructor; [|exact IH].
    apply (with_ious_like (drawn h w) bbox_iou mask_iou rnd x x'); [|exact Hx]. intros a b a' b' Ha Hb. apply (rounding_eq _ _ Hr).
    apply (drawn_iou h w); assumption.
Qed.

(* ------------------------------------------------------------------ *)
(** * Moves *)
Lemma side_shift a b c d s : (Qmax 0 (Qmin (a + s) (b + s) - Qmax (c + s) (d + s)) == Qmax 0 (Qmin a b - Qmax c d))%Q.
Proof.
  assert (E1 : (Qmin (a + s) (b + s) == Qmin a b + s)%Q).
  { destruct (Qlt_le_dec a b); [rewrite !Q.min_l by lra; reflexivity|rewrite !Q.min_r by lra; reflexivity]. }
  assert (E2 : (Qmax (c + s) (d + s) == Qmax c d + s)%Q).
  { destruct (Qlt_le_dec c d); [rewrite !Q.max_r by lra; reflexivity|rewrite !Q.max_l by lra; reflexivity]. }
  rewrite E1, E2. assert (E : (Qmin a b + s - (Qmax c d + s) == Qmin a b - Qmax c d)%Q) by ring. rewrite E. reflexivity.
Qed.
Lemma side_mirror a b c d s : (Qmax 0 (Qmin (s - a) (s - b) - Qmax (s - c) (s - d)) == Qmax 0 (Qmin c d - Qmax a b))%Q.
Proof.
  assert (E1 : (Qmin (s - a) (s - b) == s - Qmax a b)%Q).
  { destruct (Qlt_le_dec a b); [rewrite Q.min_r, Q.max_r by lra; reflexivity|rewrite Q.min_l, Q.max_l by lra; reflexivity]. }
  assert (E2 : (Qmax (s - c) (s - d) == s - Qmin c d)%Q).
  { destruct (Qlt_le_dec c d); [rewrite Q.max_l, Q.min_l by lra; reflexivity|rewrite Q.max_r, Q.min_r by lra; reflexivity]. }
  rewrite E1, E2. assert (E : (s - Qmax a b - (s - Qmin c d) == Qmin c d - Qmax a b)%Q) by ring. rewrite E. reflexivity.
Qed.
Theorem move_iou f : move f -> forall a b, (bbox_iou (f a) (f b) == bbox_iou a b)%Q.
Proof.
  induction 1 as [dx dy|c|c| |f g Hf IHf Hg IHg]; intros a b; [| | | |rewrite IHg; apply IHf]; rewrite !bbox_iou_eq; unfold xw, yh, area; cbn [b_xmin b_xmax b_ymin b_ymax].
  - apply div_where_comp; rewrite !side_shift; [reflexivity|ring].
  - apply div_where_comp; rewrite side_mirror; [reflexivity|ring].
  - apply div_where_comp; rewrite side_mirror; [reflexivity|ring].
  - apply div_where_comp; ring.
Qed.
Theorem moved_data unit rnd ds ds' : rounding unit rnd ->
  Forall2 (fun d d' => exists f, move f /\ like_image (fun b b' => b' = f b) d d') ds ds' ->
  boxes_data rnd ds' = boxes_data rnd ds.
Proof.
  intros Hr F. unfold boxes_data. induction F as [|x x' ds ds' (f & Hf & Hx) F IH]; [reflexivity|]. cbn. rewrite IH. f_equal. symmetry.
  apply (with_ious_like (fun b b' => b' = f b)); [|exact Hx]. intros a b a' b' -> ->. apply (rounding_eq _ _ Hr). symmetry. apply move_iou, Hf.
Qed.

(* ------------------------------------------------------------------ *)
(** * Scaling *)
Lemma side_scale a b c d s : (0 <= s -> Qmax 0 (Qmin (s * a) (s * b) - Qmax (s * c) (s * d)) == s * Qmax 0 (Qmin a b - Qmax c d))%Q.
Proof.
  intros Hs.
  assert (E1 : (Qmin (s * a) (s * b) == s * Qmin a b)%Q).
  { destruct (Qlt_le_dec a b); [rewrite !Q.min_l by nra; reflexivity|rewrite !Q.min_r by nra; reflexivity]. }
  assert (E2 : (Qmax (s * c) (s * d) == s * Qmax c d)%Q).
  { destruct (Qlt_le_dec c d); [rewrite !Q.max_r by nra; reflexivity|rewrite !Q.max_l by nra; reflexivity]. }
  rewrite E1, E2. set (u := Qmin a b). set (v := Qmax c d). destruct (Qlt_le_dec u v); [rewrite !Q.max_l by nra; ring|rewrite !Q.max_r by nra; ring].
Qed.
Theorem scale_iou c a b : (0 < c)%Q -> wf_box a -> wf_box b -> (epsQ <= area a)%Q -> (epsQ <= c * c * area a)%Q ->
  (bbox_iou (scale c a) (scale c b) == bbox_iou a b)%Q.
Proof.
  intros Hc Wa Wb Ha Hca. rewrite !bbox_iou_eq.
  assert (Ex : (xw (scale c a) (scale c b) == c * xw a b)%Q) by (apply side_scale; lra).
  assert (Ey : (yh (scale c a) (scale c b) == c * yh a b)%Q) by (apply side_scale; lra).
  assert (Aa : (area (scale c a) == c * c * area a)%Q) by (unfold area, scale; cbn; ring).
  assert (Ab : (area (scale c b) == c * c * area b)%Q) by (unfold area, scale; cbn; ring).
  set (i := (xw a b * yh a b)%Q). set (u := (area a + area b - i)%Q).
  rewrite (div_where_comp _ (c * c * i) _ (c * c * u)); [|rewrite Ex, Ey; unfold i; ring|rewrite Ex, Ey, Aa, Ab; unfold u, i; ring].
  assert (U : (area a <= u)%Q).
  { unfold u, i. assert (Nb : (0 <= area b)%Q) by (unfold area; destruct Wb; nra). destruct (inter_le a b) as [E|[E1 E2]]; [rewrite E; lra|lra]. }
  assert (Hcc : (0 < c * c)%Q) by nra. unfold div_where. destruct (Qlt_le_dec u epsQ) as [L|L]; [lra|]. destruct (Qlt_le_dec (c * c * u) epsQ) as [M|M]; [nra|].
  assert (Pu : (0 < u)%Q) by (unfold epsQ in *; lra). field. split; nra.
Qed.
Theorem scaled_data unit rnd ds ds' : rounding unit rnd ->
  Forall2 (fun d d' => exists c, (0 < c)%Q /\
    (forall s, In s (gd_gts d ++ gd_pds d) -> wf_box (sh_shape s) /\ (epsQ <= area (sh_shape s))%Q /\ (epsQ <= c * c * area (sh_shape s))%Q) /\
    like_image (fun b b' => b' = scale c b) d d') ds ds' ->
  boxes_data rnd ds' = boxes_data rnd ds.
Proof.
  intros Hr F. unfold boxes_data. induction F as [|x x' ds ds' (c & Hc & Hw & Hx) F IH]; [reflexivity|]. cbn. rewrite IH. f_equal. symmetry.
  set (ok b := wf_box b /\ (epsQ <= area b)%Q /\ (epsQ <= c * c * area b)%Q).
  apply (with_ious_like (fun b b' => b' = scale c b /\ ok b)).
  - intros a b a' b' [-> (Wa & Aa & Ca)] [-> (Wb & _)]. apply (rounding_eq _ _ Hr). symmetry. apply scale_iou; assumption.
  - destruct Hx as (Eu & Hg & Hp). split; [exact Eu|].
    assert (X : forall l l', (forall s, In s l -> ok (sh_shape s)) -> Forall2 (like_shape (fun b b' => b' = scale c b)) l l' ->
      Forall2 (like_shape (fun b b' => b' = scale c b /\ ok b)) l l').
    { intros l l' Hl. induction 1 as [|y y' l l' [E1 E2] _ IH']; constructor.
      - split; [exact E1|]. split; [exact E2|]. apply Hl. left. reflexivity.
      - apply IH'. intros s Hs. apply Hl. right. exact Hs. }
    split; (apply X; [|assumption]); intros s Hs; apply Hw, in_or_app; [left|right]; exact Hs.
Qed.

(* ------------------------------------------------------------------ *)
(** * Rearranged pixels *)
Lemma countb_perm {A} (f : A -> bool) l l' : Permutation l l' -> countb f l = countb f l'.
Proof. unfold countb. induction 1; cbn; [reflexivity|destruct (f x); cbn; congruence|destruct (f x), (f y); reflexivity|congruence]. Qed.
Lemma rearranged_count n pi (P : nat -> bool) : Permutation (filter (fun i => Nat.ltb i n) pi) (seq 0 n) -> (forall i, n <= i -> P i = false) ->
  countb P pi = countb P (seq 0 n).
Proof.
  intros Hp H. rewrite <- (countb_perm P _ _ Hp). unfold countb. induction pi as [|i pi IH] in |- *; [reflexivity|]. cbn [filter].
  destruct (Nat.ltb_spec i n) as [L|L]; cbn [filter]; [destruct (P i); cbn; rewrite IH; reflexivity|]. rewrite (H i L). exact IH.
Qed.
Lemma countb_nth (l : list bool) : countb (fun x => x) l = countb (fun i => nth i l false) (seq 0 (List.length l)).
Proof.
  rewrite <- (countb_bits (fun i => nth i l false)). f_equal. apply (nth_ext _ _ false (nth 0 l false)).
  - rewrite map_length, seq_length. reflexivity.
  - intros i Hi. rewrite (map_nth (fun i => nth i l false)), seq_nth by exact Hi. reflexivity.
Qed.
Theorem rearranged_iou pi a b a' b' : List.length (gm_bits a) = List.length (gm_bits b) ->
  rearranged pi a a' -> rearranged pi b b' -> mask_iou a' b' = mask_iou a b.
Proof.
  intros L [Pa Ea] [Pb Eb]. unfold mask_iou, bitmask_iou. rewrite Ea, Eb, !countb_bits, combine_bits.
  set (n := List.length (gm_bits a)) in *. rewrite <- L in Pb.
  assert (Ba : forall i, n <= i -> nth i (gm_bits a) false = false) by (intros i Hi; apply nth_overflow; exact Hi).
  assert (Bb : forall i, n <= i -> nth i (gm_bits b) false = false) by (intros i Hi; apply nth_overflow; rewrite <- L; exact Hi).
  rewrite (rearranged_count n pi (fun i => nth i (gm_bits a) false) Pa Ba), (rearranged_count n pi (fun i => nth i (gm_bits b) false) Pb Bb).
  rewrite (rearranged_count n pi (fun i => nth i (gm_bits a) false && nth i (gm_bits b) false) Pa); [|intros i Hi; rewrite (Ba i Hi); reflexivity].
  rewrite (countb_nth (gm_bits a)), (countb_nth (gm_bits b)), <- L. fold n. rewrite <- (combine_bits (fun i => nth i (gm_bits a) false) (fun i => nth i (gm_bits b) false)).
  assert (X : forall l : list bool, List.length l = n -> map (fun i => nth i l false) (seq 0 n) = l).
  { intros l Hl. apply (nth_ext _ _ (nth 0 l false) false); [rewrite map_length, seq_length; symmetry; exact Hl|]. intros i Hi.
    rewrite map_length, seq_length in Hi. rewrite (map_nth (fun i => nth i l false)), seq_nth by exact Hi. reflexivity. }
  rewrite (X (gm_bits a) eq_refl), (X (gm_bits b) (eq_sym L)). reflexivity.
Qed.
Theorem rearranged_data rnd ds ds' : Forall one_shape ds' ->
  Forall2 (fun d d' => exists pi n, (forall s, In s (gd_gts d ++ gd_pds d) -> List.length (gm_bits (sh_shape s)) = n) /\ like_image (rearranged pi) d d') ds ds' ->
  masks_data rnd ds' = Some (map (with_ious rnd mask_iou) ds).
Proof.
  intros Ho F. apply masks_like.
  - intros d Hd. apply stackable_spec. right. right. rewrite Forall_forall in Ho. apply Ho, Hd.
  - clear Ho. induction F as [|x x' ds ds' (pi & n & Hn & Hx) F IH]; constructor; [|exact IH].
    apply (with_ious_like (fun m m' => rearranged pi m m' /\ List.length (gm_bits m) = n)).
    + intros a b a' b' [Ha La] [Hb Lb]. f_equal. symmetry. apply (rearranged_iou pi); [congruence|exact Ha|exact Hb].
    + destruct Hx as (Eu & Hg & Hp). split; [exact Eu|].
      assert (X : forall l l', (forall s, In s l -> List.length (gm_bits (sh_shape s)) = n) -> Forall2 (like_shape (rearranged pi)) l l' ->
        Forall2 (like_shape (fun m m' => rearranged pi m m' /\ List.length (gm_bits m) = n)) l l').
      { intros l l' Hl. induction 1 as [|y y' l l' [E1 E2] _ IH']; constructor.
        - split; [exact E1|]. split; [exact E2|]. apply Hl. left. reflexivity.
        - apply IH'. intros s Hs. apply Hl. right. exact Hs. }
      split; (apply X; [|assumption]); intros s Hs; apply Hn, in_or_app; [left|right]; exact Hs.
Qed.

(* ------------------------------------------------------------------ *)
(** * Calls that fail *)
Section Calls.
  Variables (eps : Z) (rnd : Q -> Z) (P : Type) (ia ua : P -> P -> Q).
  Definition stored_calls (cs : list (gcall P)) : list (list detection) :=
    flat_map (fun c => match call_data rnd P ia ua c with Some ds => [ds] | None => [] end) cs.
  Lemma dmb_calls_eq bs cs : forall b, dmb_calls eps rnd P ia ua bs b cs = dmb_adds eps bs b (stored_calls cs).
  Proof.
    induction cs as [|c cs IH]; intros b; [reflexivity|]. cbn [dmb_calls stored_calls flat_map]. unfold dmb_call.
    destruct (call_data rnd P ia ua c) as [ds|]; cbn [app]; [|apply IH]. cbn [dmb_adds].
    destruct (dmb_add eps bs b ds) as [b'|]; [apply IH|reflexivity].
  Qed.
  Lemma dfb_calls_eq bs rpf cs : forall b, dfb_calls eps rnd P ia ua bs rpf b cs = dfb_adds eps bs rpf b (stored_calls cs).
  Proof.
    induction cs as [|c cs IH]; intros b; [reflexivity|]. cbn [dfb_calls stored_calls flat_map]. unfold dfb_call.
    destruct (call_data rnd P ia ua c) as [ds|]; cbn [app]; [|apply IH]. cbn [dfb_adds].
    destruct (dfb_add eps bs rpf b ds) as [b'|]; [apply IH|reflexivity].
  Qed.
End Calls.

(* ------------------------------------------------------------------ *)
(** * Polygons *)
Lemma seg_pos_of p q r s x : (r < x -> x < p -> s < x -> x < q -> 0 < Qmax 0 (Qmin p q - Qmax r s))%Q.
Proof.
  intros H1 H2 H3 H4. apply (Qlt_le_trans _ (Qmin p q - Qmax r s)); [|apply Q.le_max_r].
  assert (A : (x < Qmin p q)%Q) by (apply Q.min_glb_lt; assumption). assert (B : (Qmax r s < x)%Q) by (apply Q.max_lub_lt; assumption). lra.
Qed.
Lemma area_dichotomy a b : (exists c, is_intersection a b c /\ (area c == xw a b * yh a b)%Q) \/ (disjoint_interiors a b /\ (xw a b * yh a b == 0)%Q).
Proof.
  destruct (Qlt_le_dec 0 (xw a b * yh a b)) as [H|H].
  - left. assert (Px := xw_nonneg a b). assert (Py := yh_nonneg a b).
    assert (Lx : (0 < xw a b)%Q) by (destruct (Qlt_le_dec 0 (xw a b)); [assumption|nra]).
    assert (Ly : (0 < yh a b)%Q) by (destruct (Qlt_le_dec 0 (yh a b)); [assumption|nra]).
    set (c := MkBox (Qmax (b_xmin a) (b_xmin b)) (Qmin (b_xmax a) (b_xmax b)) (Qmax (b_ymin a) (b_ymin b)) (Qmin (b_ymax a) (b_ymax b))).
    assert (Ex : (xw a b == b_xmax c - b_xmin c)%Q).
    { unfold xw in *. cbn. destruct (Qlt_le_dec (Qmin (b_xmax a) (b_xmax b) - Qmax (b_xmin a) (b_xmin b)) 0) as [L|L];
      [rewrite Q.max_l in Lx by lra; lra|apply Q.max_r; exact L]. }
    assert (Ey : (yh a b == b_ymax c - b_ymin c)%Q).
    { unfold yh in *. cbn. destruct (Qlt_le_dec (Qmin (b_ymax a) (b_ymax b) - Qmax (b_ymin a) (b_ymin b)) 0) as [L|L];
      [rewrite Q.max_l in Ly by lra; lra|apply Q.max_r; exact L]. }
    exists c. split; [split|].
    + split; lra.
    + intros x y. unfold inside, c. cbn. rewrite !Q.max_lub_iff, !Q.min_glb_iff. tauto.
    + unfold area. rewrite Ex, Ey. reflexivity.
  - right. assert (Px := xw_nonneg a b). assert (Py := yh_nonneg a b). split; [|nra].
    intros x y ((H1 & H2) & (H3 & H4) & (H5 & H6) & H7 & H8).
    assert (Lx : (0 < xw a b)%Q) by (apply (seg_pos_of _ _ _ _ x); assumption).
    assert (Ly : (0 < yh a b)%Q) by (apply (seg_pos_of _ _ _ _ y); assumption). nra.
Qed.
Theorem polygon_box_iou {P} (ia ua : P -> P -> Q) R : true_areas ia ua R -> forall a b pa pb, R a pa -> R b pb ->
  (bbox_iou a b == polygon_iou (ia pa pb) (ua pa pb))%Q.
Proof.
  intros HR a b pa pb Ha Hb. destruct (HR a b pa pb Ha Hb) as (H1 & H2 & H3). rewrite bbox_iou_eq. unfold polygon_iou.
  assert (E : (ia pa pb == xw a b * yh a b)%Q).
  { destruct (area_dichotomy a b) as [(c & Hc & Ec)|[D E]]; [rewrite (H1 c Hc); exact Ec|rewrite (H2 D), E; reflexivity]. }
  apply div_where_comp; [rewrite E; reflexivity|rewrite H3, E; reflexivity].
Qed.

(* ------------------------------------------------------------------ *)
(** * Calls on a builder *)
Section Scenes.
  Variables (unit : Z) (rnd : Q -> Z) (P : Type) (ia ua : P -> P -> Q).
  Hypothesis Hr : rounding unit rnd.
  Lemma shown_data c c' : shown_as ia ua c c' -> call_data rnd P ia ua c' = call_data rnd P ia ua c.
  Proof.
    intros [c0|ds ds' F|R ds ds' HR F]; [reflexivity|cbn; apply (drawn_data unit); assumption|]. cbn. f_equal. unfold polygons_data, boxes_data.
    induction F as [|x x' ds ds' Hx F IH]; [reflexivity|]. cbn. rewrite IH. f_equal. symmetry. apply (with_ious_like R); [|exact Hx].
    intros a b a' b' Ha Hb. apply (rounding_eq _ _ Hr), (polygon_box_iou _ _ R); assumption.
  Qed.
  Lemma moved_scene_data c c' : moved_scene c c' -> call_data rnd P ia ua c' = call_data rnd P ia ua c.
  Proof.
    intros [c0|ds ds' F|ds ds' O O' F]; [reflexivity|cbn; f_equal; apply (moved_data unit); assumption|]. cbn.
    rewrite (rearranged_data rnd ds ds' O' F). symmetry. apply masks_like.
    - intros d Hd. apply stackable_spec. right. right. rewrite Forall_forall in O. apply O, Hd.
    - clear. induction ds as [|d ds IH]; constructor; [reflexivity|exact IH].
  Qed.
  Lemma scaled_scene_data c c' : scaled_scene c c' -> call_data rnd P ia ua c' = call_data rnd P ia ua c.
  Proof. intros [c0|ds ds' F]; [reflexivity|]. cbn. f_equal. apply (scaled_data unit); assumption. Qed.
  Lemma calls_alike eps (R : gcall P -> gcall P -> Prop) : (forall c c', R c c' -> call_data rnd P ia ua c' = call_data rnd P ia ua c) ->
    forall cs cs', Forall2 R cs cs' ->
    (forall bs b, dmb_calls eps rnd P ia ua bs b cs' = dmb_calls eps rnd P ia ua bs b cs) /\
    (forall bs rpf b, dfb_calls eps rnd P ia ua bs rpf b cs' = dfb_calls eps rnd P ia ua bs rpf b cs).
  Proof.
    intros HR cs cs' F. assert (E : stored_calls rnd P ia ua cs' = stored_calls rnd P ia ua cs).
    { induction F as [|c c' cs cs' Hc F IH]; [reflexivity|]. unfold stored_calls in *. cbn [flat_map]. rewrite (HR c c' Hc), IH. reflexivity. }
    split; intros; [rewrite !dmb_calls_eq, E|rewrite !dfb_calls_eq, E]; reflexivity.
  Qed.
  Theorem shown_calls eps cs cs' : Forall2 (shown_as ia ua) cs cs' ->
    (forall bs b, dmb_calls eps rnd P ia ua bs b cs' = dmb_calls eps rnd P ia ua bs b cs) /\
    (forall bs rpf b, dfb_calls eps rnd P ia ua bs rpf b cs' = dfb_calls eps rnd P ia ua bs rpf b cs).
  Proof. apply calls_alike, shown_data. Qed.
  Theorem moved_calls eps cs cs' : Forall2 moved_scene cs cs' ->
    (forall bs b, dmb_calls eps rnd P ia ua bs b cs' = dmb_calls eps rnd P ia ua bs b cs) /\
    (forall bs rpf b, dfb_calls eps rnd P ia ua bs rpf b cs' = dfb_calls eps rnd P ia ua bs rpf b cs).
  Proof. apply calls_alike, moved_scene_data. Qed.
  Theorem scaled_calls eps cs cs' : Forall2 scaled_scene cs cs' ->
    (forall bs b, dmb_calls eps rnd P ia ua bs b cs' = dmb_calls eps rnd P ia ua bs b cs) /\
    (forall bs rpf b, dfb_calls eps rnd P ia ua bs rpf b cs' = dfb_calls eps rnd P ia ua bs rpf b cs).
  Proof. apply calls_alike, scaled_scene_data. Qed.
  Lemma call_returns_spec c : call_returns c <-> call_data rnd P ia ua c <> None.
  Proof using.
    clear. destruct c as [ds|ds|ds]; cbn; [split; [discriminate|trivial]| |split; [discriminate|trivial]].
    unfold masks_data. destruct (forallb stackable ds) eqn:E.
    - split; [discriminate|]. intros _ d Hd. rewrite forallb_forall in E. apply stackable_spec, E, Hd.
    - split; [|congruence]. intros H. exfalso. assert (X : forallb stackable ds = true); [|congruence].
      apply forallb_forall. intros d Hd. apply stackable_spec, H, Hd.
  Qed.
  Theorem failing_calls eps cs cs' : returning cs cs' ->
    (forall bs b, dmb_calls eps rnd P ia ua bs b cs = dmb_calls eps rnd P ia ua bs b cs') /\
    (forall bs rpf b, dfb_calls eps rnd P ia ua bs rpf b cs = dfb_calls eps rnd P ia ua bs rpf b cs').
  Proof using.
    clear. intros F. assert (E : stored_calls rnd P ia ua cs = stored_calls rnd P ia ua cs').
    { induction F as [|c cs cs' Hc F IH|c cs cs' Hc F IH]; [reflexivity|unfold stored_calls in *; cbn [flat_map]; rewrite IH; reflexivity|]. unfold stored_calls in *. cbn [flat_map].
      destruct (call_data rnd P ia ua c) as [ds|] eqn:Ed; [exfalso; apply Hc, call_returns_spec; rewrite Ed; discriminate|exact IH]. }
    split; intros; [rewrite !dmb_calls_eq, E|rewrite !dfb_calls_eq, E]; reflexivity.
  Qed.
  Theorem failing_call eps c : (forall bs b b' ok, dmb_call eps rnd P ia ua bs b c = Some (b', ok) -> (ok = true <-> call_returns c) /\ (ok = false -> b' = b)) /\
    (forall bs rpf b b' ok, dfb_call eps rnd P ia ua bs rpf b c = Some (b', ok) -> (ok = true <-> call_returns c) /\ (ok = false -> b' = b)).
  Proof using.
    clear. split; [intros bs b b' ok|intros bs rpf b b' ok]; unfold dmb_call, dfb_call; rewrite call_returns_spec; destruct (call_data rnd P ia ua c) as [ds|];
    intros H.
    - destruct (dmb_add eps bs b ds); [|discriminate]. injection H as <- <-. split; [split; [discriminate|reflexivity]|discriminate].
    - injection H as <- <-. split; [split; [discriminate|congruence]|reflexivity].
    - destruct (dfb_add eps bs rpf b ds); [|discriminate]. injection H as <- <-. split; [split; [discriminate|reflexivity]|discriminate].
    - injection H as <- <-. split; [split; [discriminate|congruence]|reflexivity].
  Qed.
End Scenes.
Lemma returning_total {P} (cs : list (gcall P)) : exists cs', returning cs cs'.
Proof.
  induction cs as [|c cs (cs' & IH)]; [exists []; constructor|].
  assert (D : call_returns c \/ ~ call_returns c).
  { rewrite (call_returns_spec (fun _ => 0%Z) P (fun _ _ => 0%Q) (fun _ _ => 0%Q)).
    destruct (call_data (fun _ => 0%Z) P (fun _ _ => 0%Q) (fun _ _ => 0%Q) c); [left; discriminate|right; intros H; apply H; reflexivity]. }
  destruct D as [D|D]; [exists (c :: cs'); apply rt_keep; assumption|exists cs'; apply rt_drop; assumption].
Qed.

(* ------------------------------------------------------------------ *)
(** * Accepted input *)
Lemma boxes_input unit rnd ds : rounding unit rnd -> Forall plain_image ds -> det_input unit (boxes_data rnd ds).
Proof. intros Hr Hp. apply with_ious_input; [exact Hr|exact Hp|]. intros. apply bbox_range. Qed.
Lemma masks_input unit rnd ds ds' : rounding unit rnd -> Forall plain_image ds -> Forall true_masks ds ->
  masks_data rnd ds = Some ds' -> det_input unit ds'.
Proof.
  intros Hr Hp Hm. unfold masks_data. destruct (forallb stackable ds) eqn:E; [|discriminate]. intros H. injection H as <-.
  apply with_ious_input; [exact Hr|exact Hp|]. intros d sg sp Hd Hg Hsp. apply bitmask_range.
  rewrite forallb_forall in E. specialize (E d Hd). apply stackable_spec in E. rewrite Forall_forall in Hm. specialize (Hm d Hd).
  destruct E as [E|[E|(dims & _ & E)]]; [rewrite E in Hg; destruct Hg|rewrite E in Hsp; destruct Hsp|].
  rewrite (Hm sg), (Hm sp), (E sg), (E sp); auto using in_or_app.
Qed.
Lemma built_plain {G} (make : annotation -> G -> option (shaped G)) uid gts pds d :
  (forall a g s, make a g = Some s -> ann_ok (sh_ann s) = true) ->
  Forall (fun s => exists a g, make a g = Some s) (gts ++ pds) -> (forall s, In s gts -> a_scores (sh_ann s) = []) ->
  make_gdet uid gts pds = Some d -> plain_image d.
Proof.
  intros Hm F Hg. unfold make_gdet. destruct (forallb _ pds) eqn:E; [|discriminate]. intros H. injection H as <-. rewrite Forall_forall in F.
  rewrite forallb_forall in E. split; cbn; intros s Hs.
  - split; [|apply Hg, Hs]. destruct (F s (in_or_app _ _ _ (or_introl Hs))) as (a & g & X). apply (Hm _ _ _ X).
  - split; [|apply Nat.eqb_eq, E, Hs]. destruct (F s (in_or_app _ _ _ (or_intror Hs))) as (a & g & X). apply (Hm _ _ _ X).
Qed.
Lemma make_box_ok a b s : make_box a b = Some s -> ann_ok (sh_ann s) = true.
Proof. unfold make_box. destruct (ann_ok a) eqn:E; [|discriminate]. intros H. injection H as <-. exact E. Qed.
Lemma make_mask_ok a b s : make_mask a b = Some s -> ann_ok (sh_ann s) = true.
Proof. unfold make_mask. destruct (existsb _ _); [|discriminate]. destruct (ann_ok a) eqn:E; [|discriminate]. intros H. injection H as <-. exact E. Qed.
Lemma make_polygon_ok {P} empty a (b : P) s : make_polygon empty a b = Some s -> ann_ok (sh_ann s) = true.
Proof. unfold make_polygon. destruct (empty b); [discriminate|]. destruct (ann_ok a) eqn:E; [|discriminate]. intros H. injection H as <-. exact E. Qed.
Lemma mask_self a m s : make_mask a m = Some s -> (mask_iou (sh_shape s) (sh_shape s) == 1)%Q.
Proof.
  unfold make_mask. destruct (existsb (fun x => x) (gm_bits m)) eqn:E; [|discriminate]. destruct (ann_ok a); [|discriminate].
  intros H. injection H as <-. cbn. unfold mask_iou, bitmask_iou. set (l := gm_bits m) in *.
  assert (C : countb (fun p => fst p && snd p) (combine l l) = countb (fun x => x) l).
  { unfold countb. clear. induction l as [|x l IH]; [reflexivity|]. cbn. destruct x; cbn; rewrite IH; reflexivity. }
  rewrite C. set (n := countb (fun x => x) l) in *. replace (n + n - n) with n by lia.
  assert (N : 0 < n).
  { unfold n, countb. clear -E. induction l as [|x l IH]; [discriminate|]. cbn in *. destruct x; cbn; [lia|apply IH, E]. }
  assert (Q1 : (1 <= qnat n)%Q) by (change 1%Q with (qnat 1); apply qnat_le; lia).
  unfold div_where. destruct (Qlt_le_dec (qnat n) epsQ) as [L|L]; [exfalso; unfold epsQ in L; lra|]. field. lra.
Qed.
Lemma box_iou_stored unit rnd d p g sp sg c : rounding unit rnd -> nth_error (gd_pds d) p = Some sp -> nth_error (gd_gts d) g = Some sg ->
  is_intersection (sh_shape sg) (sh_shape sp) c -> (epsQ <= area (sh_shape sg) + area (sh_shape sp) - area c)%Q ->
  t_iou (with_ious rnd bbox_iou d) p g = rnd (area c / (area (sh_shape sg) + area (sh_shape sp) - area c))%Q.
Proof.
  intros Hr Hp Hg Hc He. rewrite with_ious_at, Hp, Hg. apply (rounding_eq _ _ Hr), bbox_formula; assumption.
Qed.
Lemma box_iou_disjoint unit rnd d p g sp sg : rounding unit rnd -> nth_error (gd_pds d) p = Some sp -> nth_error (gd_gts d) g = Some sg ->
  disjoint_interiors (sh_shape sg) (sh_shape sp) -> t_iou (with_ious rnd bbox_iou d) p g = 0%Z.
Proof.
  intros Hr Hp Hg Hd. rewrite with_ious_at, Hp, Hg. rewrite (rounding_eq _ _ Hr _ 0%Q); [apply Hr|]. apply bbox_disjoint, Hd.
Qed.
Lemma mask_iou_stored unit rnd d p g sp sg : rounding unit rnd -> nth_error (gd_pds d) p = Some sp -> nth_error (gd_gts d) g = Some sg ->
  let a := gm_bits (sh_shape sg) in let b := gm_bits (sh_shape sp) in List.length a = List.length b ->
  let n := List.length a in
  let inter := pixels_where n (fun i => pixel a i && pixel b i) in
  let union := pixels_where n (fun i => pixel a i || pixel b i) in
  t_iou (with_ious rnd mask_iou d) p g = rnd (if Nat.eqb union 0 then 0 else qnat inter / qnat union)%Q.
Proof.
  intros Hr Hp Hg a b L n inter union. rewrite with_ious_at, Hp, Hg. apply (rounding_eq _ _ Hr). apply (bitmask_formula a b L).
Qed.
Lemma calls_data eps rnd P ia ua cs dss : Forall2 (fun c ds => call_data rnd P ia ua c = Some ds) cs dss ->
  (forall bs b, dmb_calls eps rnd P ia ua bs b cs = dmb_adds eps bs b dss) /\
  (forall bs rpf b, dfb_calls eps rnd P ia ua bs rpf b cs = dfb_adds eps bs rpf b dss).
Proof.
  intros F. assert (E : stored_calls rnd P ia ua cs = dss).
  { unfold stored_calls. induction F as [|c ds cs dss Hc F IH]; [reflexivity|]. cbn [flat_map]. rewrite Hc, IH. reflexivity. }
  split; intros; [rewrite dmb_calls_eq, E|rewrite dfb_calls_eq, E]; reflexivity.
Qed.
