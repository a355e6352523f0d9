(* Proofs about the metadata of object detection data. *)
From Verif Require Import Prelude Counting CacheModel CacheSpec ClsModel FlowModel DetModel DetExModel DetSpec DetMain DetFlowModel
  DetReportModel DetEnd DetFilterModel DetFilterSpec DetFilterProofs DetMetaModel DetMetaSpec.
From Coq Require Import String Lia.
Local Open Scope nat_scope.
Local Open Scope list_scope.
Local Notation length := List.length (only parsing).
Local Notation concat := List.concat (only parsing).

(* ------------------------------------------------------------------ *)
(** * Dictionaries *)

Lemma dget_app a b k : dget (a ++ b) k = match dget a k with Some v => Some v | None => dget b k end.
Proof. unfold dget. induction a as [|[x v] a IH]; [reflexivity|]. cbn. destruct (String.eqb k x); [reflexivity|exact IH]. Qed.
Lemma dget_merge a b k : dget (dmerge a b) k = match dget b k with Some v => Some v | None => dget a k end.
Proof. apply dget_app. Qed.
Lemma dget_none m k : ~ In k (map fst m) -> dget m k = None.
Proof.
  unfold dget. induction m as [|[x v] m IH]; intros H; [reflexivity|]. cbn in *. destruct (String.eqb_spec k x) as [->|N]; [exfalso; apply H; left; reflexivity|].
  apply IH. intros I. apply H. right. exact I.
Qed.
Lemma dget_schema (g : string -> value) schema k : dget (map (fun k => (k, g k)) schema) k = if existsb (String.eqb k) schema then Some (g k) else None.
Proof.
  unfold dget. induction schema as [|x schema IH]; [reflexivity|]. cbn. destruct (String.eqb_spec k x) as [->|N]; [reflexivity|]. cbn. exact IH.
Qed.
Lemma existsb_eqb k l : existsb (String.eqb k) l = true <-> In k l.
Proof. rewrite existsb_exists. split; [intros (x & H & E); apply String.eqb_eq in E; subst; exact H|intros H; exists k; split; [exact H|apply String.eqb_refl]]. Qed.

Lemma reserved_column r k : dget (reserved r) k = column r k.
Proof.
  unfold dget, reserved, column, vstr. cbn [find fst snd].
  repeat match goal with |- context [String.eqb k ?s] => destruct (String.eqb k s); [reflexivity|] end. reflexivity.
Qed.

(* ------------------------------------------------------------------ *)
(** * Loader *)

(* the dictionary of a row of datum [d] *)
Definition o_meta (o : option mann) : mdict := match o with Some a => ma_meta a | None => [] end.
Definition comes (d : mdet) (r : drow) (x : mdict) : Prop :=
  exists og op, x = dmerge (dmerge (dmerge (mt_meta d) (o_meta og)) (o_meta op)) (reserved r) /\
    d_uid r = mt_uid d /\ d_gt_uid r = option_map uid_of og /\ d_pd_uid r = option_map uid_of op /\
    (forall a, og = Some a -> In a (mt_gts d)) /\ (forall a, op = Some a -> In a (mt_pds d)).

Definition acc_rel (d : mdet) (a : list string * list drow) (b : list string * list mdict) : Prop :=
  fst a = fst b /\ Forall2 (comes d) (snd a) (snd b).
Lemma fold_rel {A B X Y} (R : A -> B -> Prop) (S : X -> Y -> Prop) f g l l' : Forall2 S l l' ->
  (forall a b x y, R a b -> S x y -> R (f a x) (g b y)) -> forall a b, R a b -> R (fold_left f l a) (fold_left g l' b).
Proof. intros H E. induction H as [|x y l l' Hxy H IH]; intros a b Hab; [exact Hab|]. cbn. apply IH. apply E; assumption. Qed.
Lemma F2_same {A} (l : list A) : Forall2 eq l l.
Proof. induction l; constructor; auto. Qed.
Lemma F2_in {A} (l : list A) : Forall2 (fun x y => x = y /\ In x l) l l.
Proof.
  assert (G : forall m, (forall x, In x m -> In x l) -> Forall2 (fun x y => x = y /\ In x l) m m).
  { induction m as [|a m IH]; intros H; constructor; [split; [reflexivity|apply H; left; reflexivity]|apply IH; intros x Hx; apply H; right; exact Hx]. }
  apply G. auto.
Qed.

Section Datum.
  Variables (eps : Z) (d : mdet) (datum gb pb : nat).
  Notation dp := (plain d).

  Lemma emit_pd_rel p pa a b : In pa (mt_pds d) -> acc_rel d a b -> acc_rel d (emit_pd dp datum pb p (ma_ann pa) a) (m_emit_pd d datum pb p pa b).
  Proof.
    intros Hp Hab. unfold emit_pd, m_emit_pd. apply (fold_rel (acc_rel d) eq _ _ _ _ (F2_same _)); [|exact Hab].
    intros [la ra] [lb rb] ls ls' [E F] <-. cbn [fst snd] in E, F. subst lb. destruct (add_label la (fst ls)) as [l1 pi]. split; [reflexivity|].
    cbn [snd]. apply Forall2_app; [exact F|]. constructor; [|constructor]. exists None, (Some pa). cbn [o_meta option_map].
    repeat split; try (intros z E; discriminate E). intros z E. injection E as <-. exact Hp.
  Qed.
  Lemma emit_pair_rel g ga p pa a b : In ga (mt_gts d) -> In pa (mt_pds d) -> acc_rel d a b ->
    acc_rel d (emit_pair dp datum gb pb g (ma_ann ga) p (ma_ann pa) a) (m_emit_pair d datum gb pb g ga p pa b).
  Proof.
    intros Hg Hp Hab. unfold emit_pair, m_emit_pair. apply (fold_rel (acc_rel d) eq _ _ _ _ (F2_same _)); [|exact Hab].
    intros a1 b1 gl gl' Hab1 <-. apply (fold_rel (acc_rel d) eq _ _ _ _ (F2_same _)); [|exact Hab1].
    intros [la ra] [lb rb] ls ls' [E F] <-. cbn [fst snd] in E, F. subst lb. destruct (add_label la gl) as [l1 gi]. destruct (add_label l1 (fst ls)) as [l2 pi].
    split; [reflexivity|]. cbn [snd]. apply Forall2_app; [exact F|]. constructor; [|constructor]. exists (Some ga), (Some pa). cbn [o_meta option_map].
    repeat split; intros x E; injection E as <-; assumption.
  Qed.
  Lemma enum_map {A B} (f : A -> B) (l : list A) : Forall2 (fun x y => fst x = fst y /\ snd x = f (snd y) /\ In (snd y) l) (enum (map f l)) (enum l).
  Proof.
    unfold enum. rewrite map_length. generalize 0 as k.
    assert (G : forall m k, (forall x, In x m -> In x l) -> Forall2 (fun (x : nat * B) (y : nat * A) => fst x = fst y /\ snd x = f (snd y) /\ In (snd y) l)
      (combine (seq k (length m)) (map f m)) (combine (seq k (length m)) m)).
    { induction m as [|a m IH]; intros k H; cbn; constructor; [cbn; auto using in_eq|apply IH; intros x Hx; apply H; right; exact Hx]. }
    intros k. apply G. auto.
  Qed.
  Lemma emit_gt_pds_rel g ga a b : In ga (mt_gts d) -> acc_rel d a b ->
    acc_rel d (emit_gt_pds eps dp datum gb pb g (ma_ann ga) a) (m_emit_gt_pds eps d datum gb pb g ga b).
  Proof.
    intros Hg Hab. unfold emit_gt_pds, m_emit_gt_pds. apply (fold_rel (acc_rel d) _ _ _ _ _ (enum_map ma_ann (mt_pds d))); [|exact Hab].
    intros a1 b1 [i x] [j y] Hab1 (E1 & E2 & Hy). cbn [fst snd] in *. subst j x. change (t_iou dp i g) with (mt_iou d i g).
    assert (H1 : acc_rel d (if pd_alone eps dp i then emit_pd dp datum pb i (ma_ann y) a1 else a1) (if pd_alone eps dp i then m_emit_pd d datum pb i y b1 else b1)).
    { destruct (pd_alone eps dp i); [apply emit_pd_rel; assumption|exact Hab1]. }
    destruct (eps <=? mt_iou d i g)%Z; [apply emit_pair_rel; assumption|exact H1].
  Qed.
  Definition oacc_rel (a : option (list string * list drow)) (b : option (list string * list mdict)) : Prop :=
    match a, b with Some x, Some y => acc_rel d x y | None, None => True | _, _ => False end.
  Lemma emit_datum_rel labels : oacc_rel (emit_datum eps dp datum gb pb labels) (m_emit_datum eps d datum gb pb labels).
  Proof.
    unfold emit_datum, m_emit_datum. cbn [t_gts plain]. destruct (mt_gts d) as [|g0 gs] eqn:E.
    - cbn [map]. cbn [oacc_rel]. apply (fold_rel (acc_rel d) _ _ _ _ _ (enum_map ma_ann (mt_pds d))).
      + intros a b [i x] [j y] Hab (E1 & E2 & Hy). cbn [fst snd] in *. subst j x. apply emit_pd_rel; assumption.
      + split; [reflexivity|constructor].
    - cbn [map]. change (ma_ann g0 :: map ma_ann gs) with (map ma_ann (g0 :: gs)). rewrite <- E.
      apply (fold_rel oacc_rel _ _ _ _ _ (enum_map ma_ann (mt_gts d))); [|split; [reflexivity|constructor]].
      intros [[la ra]|] [[lb rb]|] [i x] [j y] Hab (E1 & E2 & Hy); cbn [fst snd] in *; try contradiction; subst j x; unfold emit_gt, m_emit_gt; cbn [fst snd].
      + destruct Hab as [El F]. cbn [fst snd] in El, F. subst lb. destruct (a_labels (ma_ann y)) as [|gl rest]; [exact I|]. destruct (add_label la gl) as [l1 gi].
        cbn [oacc_rel]. apply emit_gt_pds_rel; [exact Hy|]. split; [reflexivity|]. cbn [snd]. destruct (gt_alone eps dp i); [|exact F].
        apply Forall2_app; [exact F|]. constructor; [|constructor]. exists (Some y), None. cbn [o_meta option_map].
        repeat split; try (intros a Ea; discriminate Ea). intros a Ea. injection Ea as <-. exact Hy.
      + exact I.
  Qed.
End Datum.

Lemma find_meta_spec u a l : In a l -> uid_of a = u -> (forall b, In b l -> uid_of b = u -> ma_meta b = ma_meta a) -> find_meta u l = ma_meta a.
Proof.
  intros H E S. unfold find_meta. destruct (find _ l) as [b|] eqn:F.
  - apply find_some in F. destruct F as [F1 F2]. apply String.eqb_eq in F2. apply S; assumption.
  - exfalso. assert (X := find_none _ _ F a H). cbn in X. rewrite E, String.eqb_refl in X. discriminate.
Qed.
Lemma comes_columns schema ds d r x : one_meaning ds -> In d ds -> comes d r x -> stored schema x = row_columns schema ds r.
Proof.
  intros (U1 & U2 & U3) Hd (og & op & -> & E1 & E2 & E3 & I1 & I2).
  assert (M1 : datum_meta ds (d_uid r) = mt_meta d).
  { unfold datum_meta. destruct (find _ ds) as [d'|] eqn:F.
    - apply find_some in F. destruct F as [F1 F2]. apply String.eqb_eq in F2. apply U1; [assumption|assumption|congruence].
    - exfalso. assert (X := find_none _ _ F d Hd). cbn in X. rewrite E1, String.eqb_refl in X. discriminate. }
  assert (M2 : opt_meta (d_gt_uid r) (flat_map mt_gts ds) = o_meta og).
  { rewrite E2. destruct og as [a|]; [|reflexivity]. cbn. apply find_meta_spec; [apply in_flat_map; eauto|reflexivity|].
    intros b Hb Eb. apply in_flat_map in Hb. destruct Hb as (d' & Hd' & Hb). apply (U2 d' d b a); auto. }
  assert (M3 : opt_meta (d_pd_uid r) (flat_map mt_pds ds) = o_meta op).
  { rewrite E3. destruct op as [a|]; [|reflexivity]. cbn. apply find_meta_spec; [apply in_flat_map; eauto|reflexivity|].
    intros b Hb Eb. apply in_flat_map in Hb. destruct Hb as (d' & Hd' & Hb). apply (U3 d' d b a); auto. }
  unfold stored, row_columns, row_meta. rewrite M1, M2, M3. apply map_ext. intros k. f_equal. rewrite dget_merge, reserved_column. destruct (column r k); [reflexivity|].
  unfold orelse. destruct (dget (dmerge (dmerge (mt_meta d) (o_meta og)) (o_meta op)) k); reflexivity.
Qed.

Definition same_loader (schema : list string) (ds : list mdet) (l : dloader) (m : mloader) : Prop :=
  l_labels l = ml_labels m /\ l_datums l = ml_datums m /\ l_gts l = ml_gts m /\ l_pds l = ml_pds m /\
  ml_writes m = map (map (row_columns schema ds)) (l_writes l).
Lemma add_rel eps schema ds : one_meaning ds -> forall ds', (forall d, In d ds' -> In d ds) -> forall l m, same_loader schema ds l m ->
  match add_detections eps l (map plain ds'), m_add_detections eps schema m ds' with
  | Some l', Some m' => same_loader schema ds l' m'
  | None, None => True
  | _, _ => False
  end.
Proof.
  intros U. induction ds' as [|d ds' IH]; intros Hin l m H; [exact H|]. cbn [map add_detections m_add_detections].
  destruct H as (H1 & H2 & H3 & H4 & H5). unfold add_detection, m_add_detection. rewrite H1, H2, H3, H4.
  assert (R := emit_datum_rel eps d (ml_datums m) (ml_gts m) (ml_pds m) (ml_labels m)). unfold oacc_rel in R.
  destruct (emit_datum eps (plain d) (ml_datums m) (ml_gts m) (ml_pds m) (ml_labels m)) as [[la ra]|];
    destruct (m_emit_datum eps d (ml_datums m) (ml_gts m) (ml_pds m) (ml_labels m)) as [[lb rb]|]; try contradiction; [|exact I].
  destruct R as [El F]. cbn [fst snd] in El, F. subst lb.
  apply IH; [intros x Hx; apply Hin; right; exact Hx|]. unfold same_loader. cbn [l_labels l_datums l_gts l_pds l_writes ml_labels ml_datums ml_gts ml_pds ml_writes t_gts t_pds plain].
  rewrite !map_length. split; [reflexivity|]. split; [reflexivity|]. split; [reflexivity|]. split; [reflexivity|].
  rewrite map_app, H5. f_equal. assert (X : map (stored schema) rb = map (row_columns schema ds) ra).
  { assert (Hd : In d ds) by (apply Hin; left; reflexivity). clear - F U Hd. induction F as [|r x ra rb C F IH]; [reflexivity|]. cbn. rewrite IH. f_equal. apply (comes_columns schema ds d); assumption. }
  destruct F; [reflexivity|]. cbn [map] in *. rewrite X. reflexivity.
Qed.

(* ------------------------------------------------------------------ *)
(** * Filter *)

Definition has_columns (schema : list string) : Prop := forall k, In k det_reserved -> In k schema.
Section Filter.
  Variables (schema : list string) (ds : list mdet).
  Hypothesis Hs : has_columns schema.
  Notation cols := (row_columns schema ds).

  Lemma cols_reserved r k v : In k det_reserved -> dget (reserved r) k = Some v -> dget (cols r) k = Some v.
  Proof. intros Hk E. rewrite reserved_column in E. unfold row_columns. rewrite dget_schema. rewrite (proj2 (existsb_eqb k schema) (Hs k Hk)), E. reflexivity. Qed.
  Lemma agree_cols (ks : list string) (key : drow -> Z * Z * Z) k1 k2 k3 f1 f2 f3 r r' : ks = [k1; k2; k3] ->
    (forall r, key r = (f1 r, f2 r, f3 r)) ->
    (forall r, dget (cols r) k1 = Some (VInt (f1 r))) -> (forall r, dget (cols r) k2 = Some (VInt (f2 r))) -> (forall r, dget (cols r) k3 = Some (VInt (f3 r))) ->
    agree ks (cols r) (cols r') = if zzz_dec (key r) (key r') then true else false.
  Proof.
    intros -> Ek E1 E2 E3. cbn [agree forallb]. unfold agree. cbn [forallb]. rewrite !E1, !E2, !E3.
    destruct (zzz_dec (key r) (key r')) as [E|N]; rewrite !Ek in *.
    - injection E as X1 X2 X3. rewrite X1, X2, X3. repeat (destruct (value_dec _ _) as [_|NN]; [|exfalso; apply NN; reflexivity]). reflexivity.
    - destruct (value_dec (VInt (f1 r)) (VInt (f1 r'))) as [A1|]; [|reflexivity]. destruct (value_dec (VInt (f2 r)) (VInt (f2 r'))) as [A2|]; [|reflexivity].
      destruct (value_dec (VInt (f3 r)) (VInt (f3 r'))) as [A3|]; [|reflexivity]. exfalso. apply N. injection A1 as ->. injection A2 as ->. injection A3 as ->. reflexivity.
  Qed.
  Lemma agree_gt r r' : agree ["datum_id"; "gt_id"; "gt_label_id"]%string (cols r) (cols r') = same_gtk r r'.
  Proof.
    apply (agree_cols _ gt_key _ _ _ d_datum d_gt d_gl r r' eq_refl); [reflexivity| | |]; intros x; apply cols_reserved; try reflexivity; cbn; tauto.
  Qed.
  Lemma agree_pd r r' : agree ["datum_id"; "pd_id"; "pd_label_id"]%string (cols r) (cols r') = same_pdk r r'.
  Proof.
    apply (agree_cols _ pd_key _ _ _ d_datum d_pd d_pl r r' eq_refl); [reflexivity| | |]; intros x; apply cols_reserved; try reflexivity; cbn; tauto.
  Qed.
  Lemma filter_row_cols vg vp r : m_filter_row vg vp (cols r) = cols (det_filter_row vg vp r).
  Proof.
    unfold m_filter_row, row_columns. rewrite map_map. apply map_ext. intros k. cbn [fst snd]. f_equal.
    change (row_meta ds (det_filter_row vg vp r)) with (row_meta ds r).
    generalize (match dget (row_meta ds r) k with Some v => v | None => VNull end). intros dflt.
    generalize (orelse (dget (row_meta ds r) k) None). clear dflt. intros dflt.
    unfold column, det_filter_row. cbn [fst snd d_uid d_datum d_gt_uid d_gt d_gt_label d_gl d_pd_uid d_pd d_pd_label d_pl d_score d_iou d_prev option_map].
    repeat match goal with |- context [String.eqb k ?s] => destruct (String.eqb_spec k s) as [->|?]; [cbn; destruct vg, vp; reflexivity|] end.
    cbn. destruct vg, vp; reflexivity.
  Qed.
  Lemma filter_map_cols (f : mdict -> bool) t : filter f (map cols t) = map cols (filter (fun r => f (cols r)) t).
  Proof. induction t as [|r t IH]; [reflexivity|]. cbn. destruct (f (cols r)); cbn; rewrite IH; reflexivity. Qed.
  Lemma existsb_cols (g : mdict -> bool) t : existsb g (map cols t) = existsb (fun r => g (cols r)) t.
  Proof. induction t as [|r t IH]; [reflexivity|]. cbn. rewrite IH. reflexivity. Qed.
  Lemma existsb_extf {A} (f g : A -> bool) l : (forall x, f x = g x) -> existsb f l = existsb g l.
  Proof. intros H. induction l as [|a l IH]; [reflexivity|]. cbn. rewrite H, IH. reflexivity. Qed.
  Definition on_cols (f : option (mdict -> bool)) : option (drow -> bool) := option_map (fun f r => f (cols r)) f.
  Lemma filter_table_cols gts pds t : m_filter_table gts pds (map cols t) = map cols (det_filter_table (on_cols gts) (on_cols pds) t).
  Proof.
    unfold m_filter_table, det_filter_table.
    set (vg := fun r => match on_cols gts with None => true | Some f => existsb (same_gtk r) (filter f t) end).
    set (vp := fun r => match on_cols pds with None => true | Some f => existsb (same_pdk r) (filter f t) end).
    assert (Eg : forall r, match gts with None => true | Some f => existsb (agree ["datum_id"; "gt_id"; "gt_label_id"]%string (cols r)) (filter f (map cols t)) end = vg r).
    { intros r. unfold vg. destruct gts as [f|]; [|reflexivity]. cbn [on_cols option_map]. rewrite filter_map_cols, existsb_cols. apply existsb_extf. intros x. apply agree_gt. }
    assert (Ep : forall r, match pds with None => true | Some f => existsb (agree ["datum_id"; "pd_id"; "pd_label_id"]%string (cols r)) (filter f (map cols t)) end = vp r).
    { intros r. unfold vp. destruct pds as [f|]; [|reflexivity]. cbn [on_cols option_map]. rewrite filter_map_cols, existsb_cols. apply existsb_extf. intros x. apply agree_pd. }
    rewrite filter_map_cols. rewrite (filter_ext _ (fun r => vg r || vp r)) by (intros r; rewrite Eg, Ep; reflexivity).
    rewrite map_map. rewrite (map_ext _ (fun r => cols (det_filter_row (vg r) (vp r) r))) by (intros r; rewrite Eg, Ep; apply filter_row_cols).
    rewrite <- (map_map (fun r => det_filter_row (vg r) (vp r) r) cols). rewrite filter_map_cols. f_equal. apply filter_ext. intros r.
    unfold negative. rewrite (cols_reserved r "gt_id"%string (VInt (d_gt r))) by (reflexivity || (cbn; tauto)).
    rewrite (cols_reserved r "pd_id"%string (VInt (d_pd r))) by (reflexivity || (cbn; tauto)). reflexivity.
  Qed.
  Lemma filter_tables_cols datums gts pds ts : m_filter_tables datums gts pds (map (map cols) ts)
    = map (map cols) (det_filter_tables (fun r => datums (cols r)) (on_cols gts) (on_cols pds) ts).
  Proof.
    unfold m_filter_tables, det_filter_tables. rewrite !map_map. apply map_ext. intros t. rewrite filter_map_cols. apply filter_table_cols.
  Qed.
End Filter.
