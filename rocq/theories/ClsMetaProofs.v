(* Proofs about the metadata of classification data. *)
From Verif Require Import Prelude Counting CacheModel CacheSpec ClsModel ClsSpec ClsLabelProofs ClsProofs RocModel FlowModel FlowProofs FlowMore ClsLemmas ClsMore
  ClsFilterModel ClsFilterSpec ClsFilterProofs ClsFilterCounts ClsFilterMain DetMetaModel DetMetaProofs ClsMetaModel ClsMetaSpec.
From Coq Require Import String Lia.
Local Open Scope nat_scope.
Local Open Scope list_scope.
Local Notation length := List.length (only parsing).
Local Notation concat := List.concat (only parsing).

(* ------------------------------------------------------------------ *)
(** * Loader *)

Section Meta.
  Variables (schema : list string) (ms : list mcls).
  Notation cs := (map mc_cls ms).
  Notation cols := (c_columns schema ms).
  Hypothesis U : one_metadata ms.

  Lemma uid_found m k : In m ms -> uid_value ms (c_uid (mc_cls m)) k = value_of m k.
  Proof.
    intros Hm. unfold uid_value. destruct (find _ ms) as [m'|] eqn:F.
    - apply find_some in F. destruct F as [F1 F2]. apply String.eqb_eq in F2. unfold value_of. rewrite (U m' m F1 Hm F2). reflexivity.
    - exfalso. assert (X := find_none _ _ F m Hm). cbn in X. rewrite String.eqb_refl in X. discriminate.
  Qed.
  Lemma stored_cols m r : In m ms -> r_uid r = c_uid (mc_cls m) -> stored schema (dmerge (mc_meta m) (c_reserved r)) = cols r.
  Proof.
    intros Hm E. unfold stored, c_columns. apply map_ext. intros k. f_equal. rewrite dget_merge. destruct (dget (c_reserved r) k); [reflexivity|].
    rewrite E, (uid_found m k Hm). reflexivity.
  Qed.
  Lemma build_cols m : In m ms -> forall ps datum gidx mx i labels,
    fst (build_rows (mc_cls m) datum gidx mx i labels ps) = fst (m_build_rows m datum gidx mx i labels ps) /\
    map (stored schema) (snd (m_build_rows m datum gidx mx i labels ps)) = map cols (snd (build_rows (mc_cls m) datum gidx mx i labels ps)).
  Proof.
    intros Hm. induction ps as [|[pl s] ps IH]; intros datum gidx mx i labels; [split; reflexivity|]. cbn [build_rows m_build_rows].
    destruct (add_label labels pl) as [l1 pidx]. specialize (IH datum gidx mx (S i) l1).
    destruct (build_rows (mc_cls m) datum gidx mx (S i) l1 ps) as [la ra], (m_build_rows m datum gidx mx (S i) l1 ps) as [lb rb]. cbn [fst snd map] in *.
    destruct IH as [-> E]. split; [reflexivity|]. rewrite E. f_equal.
    apply (stored_cols m (MkRow (c_uid (mc_cls m)) (Z.of_nat datum) (c_groundtruth (mc_cls m)) (Z.of_nat gidx) pl (Z.of_nat pidx) s (Nat.eqb mx i) (Nat.eqb gidx pidx)) Hm).
    reflexivity.
  Qed.
  Definition same_cloader (l : loader) (m : mcloader) : Prop :=
    ld_labels l = mcl_labels m /\ ld_count l = mcl_count m /\ mcl_writes m = map (map cols) (ld_writes l).
  Lemma add_cols : forall ms', (forall m, In m ms' -> In m ms) -> forall l m, same_cloader l m ->
    snd (add_data l (map mc_cls ms')) = snd (m_add_data schema m ms') /\
    same_cloader (fst (add_data l (map mc_cls ms'))) (fst (m_add_data schema m ms')).
  Proof.
    induction ms' as [|x ms' IH]; intros Hin l m H; [split; [reflexivity|exact H]|]. cbn [map add_data m_add_data]. destruct H as (H1 & H2 & H3).
    unfold add_one, m_add_one. destruct (c_predictions (mc_cls x)) as [|p ps] eqn:E; [split; [reflexivity|split; [|split]; assumption]|].
    rewrite H1, H2. destruct (add_label (mcl_labels m) (c_groundtruth (mc_cls x))) as [l1 gidx].
    assert (B := build_cols x (Hin x (or_introl eq_refl)) (combine (p :: ps) (c_scores (mc_cls x))) (mcl_count m) gidx (argmax (c_scores (mc_cls x))) 0 l1).
    destruct (build_rows (mc_cls x) (mcl_count m) gidx (argmax (c_scores (mc_cls x))) 0 l1 (combine (p :: ps) (c_scores (mc_cls x)))) as [la ra].
    destruct (m_build_rows x (mcl_count m) gidx (argmax (c_scores (mc_cls x))) 0 l1 (combine (p :: ps) (c_scores (mc_cls x)))) as [lb rb].
    cbn [fst snd] in B. destruct B as [-> B]. apply IH; [intros y Hy; apply Hin; right; exact Hy|].
    split; [reflexivity|]. split; [reflexivity|]. cbn [mcl_writes ld_writes]. rewrite map_app, H3, B. reflexivity.
  Qed.
End Meta.

Lemma c_written fields schema ms : cls_schema fields = Some schema -> one_metadata ms ->
  snd (m_add_data schema mcloader_init ms) = snd (add_data loader_init (map mc_cls ms)) /\
  mcl_labels (fst (m_add_data schema mcloader_init ms)) = ld_labels (fst (add_data loader_init (map mc_cls ms))) /\
  mcl_writes (fst (m_add_data schema mcloader_init ms)) = map (map (c_columns schema ms)) (writes_of (map mc_cls ms)).
Proof.
  intros _ U. destruct (add_cols schema ms U ms (fun m H => H) loader_init mcloader_init) as (E & E1 & _ & E3); [split; [|split]; reflexivity|].
  rewrite E, E1, E3. auto.
Qed.

(* ------------------------------------------------------------------ *)
(** * Filter *)

Lemma c_schema_facts fields schema f : cls_schema fields = Some schema ->
  (forall k, In k reserved_fields -> In k schema) /\ (In f (map fst fields) -> In f schema /\ ~ In f reserved_fields).
Proof.
  unfold cls_schema, generate_schema. destruct (existsb _ fields) eqn:E; [discriminate|]. intros H.
  assert (Es : schema = reserved_fields ++ map fst fields) by congruence. subst schema. split.
  - intros k Hk. exact (in_or_app reserved_fields _ k (or_introl Hk)).
  - intros Hf. split; [exact (in_or_app reserved_fields _ f (or_intror Hf))|].
    intros N. apply in_map_iff in Hf. destruct Hf as (x & <- & Hx). rewrite <- Bool.not_true_iff_false in E. apply E. apply existsb_exists. exists x.
    split; [exact Hx|]. apply existsb_eqb. exact N.
Qed.
Section Filter.
  Variables (schema : list string) (ms : list mcls).
  Hypothesis Hs : forall k, In k reserved_fields -> In k schema.
  Notation cols := (c_columns schema ms).
  Lemma c_reserved_col r k v : In k reserved_fields -> dget (c_reserved r) k = Some v -> dget (cols r) k = Some v.
  Proof. intros Hk E. unfold c_columns. rewrite dget_schema, (proj2 (existsb_eqb k schema) (Hs k Hk)), E. reflexivity. Qed.
  Lemma agree_two k1 k2 f1 f2 : (forall r, dget (cols r) k1 = Some (VInt (f1 r))) -> (forall r, dget (cols r) k2 = Some (VInt (f2 r))) ->
    forall r r', agree [k1; k2] (cols r) (cols r') = (f1 r =? f1 r')%Z && (f2 r =? f2 r')%Z.
  Proof.
    intros E1 E2 r r'. unfold agree. cbn [forallb]. rewrite !E1, !E2, andb_true_r.
    assert (X : forall a b, (if value_dec (VInt a) (VInt b) then true else false) = (a =? b)%Z).
    { intros a b. destruct (value_dec (VInt a) (VInt b)) as [E|N], (Z.eqb_spec a b); try congruence. }
    rewrite !X. reflexivity.
  Qed.
  Lemma c_agree_gt r r' : agree ["datum_id"; "gt_label_id"]%string (cols r) (cols r') = same_gt r r'.
  Proof. apply (agree_two _ _ r_datum r_gt); intros x; apply c_reserved_col; try reflexivity; cbn; tauto. Qed.
  Lemma c_agree_pd r r' : agree ["datum_id"; "pd_label_id"]%string (cols r) (cols r') = same_pd r r'.
  Proof. apply (agree_two _ _ r_datum r_pd); intros x; apply c_reserved_col; try reflexivity; cbn; tauto. Qed.
  Lemma c_filter_map (f : mdict -> bool) t : filter f (map cols t) = map cols (filter (fun r => f (cols r)) t).
  Proof. induction t as [|r t IH]; [reflexivity|]. cbn. destruct (f (cols r)); cbn; rewrite IH; reflexivity. Qed.
  Lemma c_existsb_map (g : mdict -> bool) t : existsb g (map cols t) = existsb (fun r => g (cols r)) t.
  Proof. induction t as [|r t IH]; [reflexivity|]. cbn. rewrite IH. reflexivity. Qed.
  Lemma c_filter_rows datums gts pds tables :
    mc_filter_tables datums gts pds (map (map cols) tables)
    = map (map cols) (filter_tables (fun r => datums (cols r)) (option_map (fun f r => f (cols r)) gts) (option_map (fun f r => f (cols r)) pds) tables).
  Proof.
    unfold mc_filter_tables, filter_tables. rewrite !map_map. apply map_ext. intros t0. rewrite c_filter_map. set (t := filter _ t0). clearbody t.
    unfold mc_filter_table, filter_table. rewrite c_filter_map. f_equal. apply filter_ext. intros r. f_equal.
    - destruct gts as [f|]; [|reflexivity]. cbn [option_map]. rewrite c_filter_map, c_existsb_map. apply existsb_extf. intros x. apply c_agree_gt.
    - destruct pds as [f|]; [|reflexivity]. cbn [option_map]. rewrite c_filter_map, c_existsb_map. apply existsb_extf. intros x. apply c_agree_pd.
  Qed.
End Filter.
Lemma c_filter_cols fields schema ms datums gts pds tables : cls_schema fields = Some schema ->
  mc_filter_tables datums gts pds (map (map (c_columns schema ms)) tables)
  = map (map (c_columns schema ms))
      (filter_tables (fun r => datums (c_columns schema ms r)) (option_map (fun f r => f (c_columns schema ms r)) gts)
         (option_map (fun f r => f (c_columns schema ms r)) pds) tables).
Proof. intros H. apply c_filter_rows. apply (c_schema_facts fields schema "" H). Qed.

(* ------------------------------------------------------------------ *)
(** * Filters on a field *)

Section Field.
  Variables (ms : list mcls) (fields : list (string * string)) (schema : list string) (f : string) (P : value -> bool).
  Notation cs := (map mc_cls ms).
  Hypothesis Hsc : cls_schema fields = Some schema.
  Hypothesis Hfi : In f (map fst fields).
  Hypothesis U : one_metadata ms.

  Definition by_value : cview := fun c _ => P (uid_value ms (c_uid c) f).
  Lemma by_value_spec m l : In m ms -> by_value (mc_cls m) l = P (value_of m f).
  Proof. intros Hm. unfold by_value. rewrite (uid_found ms U m f Hm). reflexivity. Qed.
  Lemma where_value r : c_where schema ms f P r = P (uid_value ms (r_uid r) f).
  Proof.
    destruct (proj2 (c_schema_facts fields schema f Hsc) Hfi) as [Hf Hr]. unfold c_where, field, c_columns.
    rewrite dget_schema, (proj2 (existsb_eqb f schema) Hf). rewrite (dget_none (c_reserved r) f); [reflexivity|exact Hr].
  Qed.
  Lemma value_expresses : Forall accepted cs -> expresses cs (c_where schema ms f P) by_value.
  Proof.
    intros Ha r d c Hr Ed Hc. rewrite where_value. unfold by_value. apply (writes_row cs Ha) in Hr. destruct Hr as (d' & c' & Hc' & Hr).
    apply canon_In in Hr. destruct Hr as (Eu & Ed' & _). assert (d' = d) by lia. subst d'. rewrite Eu. congruence.
  Qed.

  Lemma meta_view w e a e' : cls_evaluator cs w e -> c_filtered e a (c_where schema ms f P) e' ->
    exists w', cls_evaluator cs w' e' /\ forall m l, In m ms -> In l (c_predictions (mc_cls m)) -> w' (mc_cls m) l = w (mc_cls m) l && P (value_of m f).
  Proof.
    intros He H. assert (Ha := ev_acc cs w e He). assert (X := value_expresses Ha).
    exists (match a with AsDatums => crestrict w by_value all_kept all_kept | AsGroundtruths => crestrict w all_kept by_value all_kept
                    | AsPredictions => crestrict w all_kept all_kept by_value end). split.
    - assert (N : opt_expresses cs None all_kept) by (intros c l; reflexivity).
      assert (A : expresses cs (fun _ => true) all_kept) by (intros r d c _ _ _; reflexivity).
      unfold c_filtered in H. destruct a; destruct H as [(bs & rb & H)|(bs & rpf & rb & Hrb & H)].
      + eapply cls_filtered_mem; [exact He|exact X|exact N|exact N|exact H].
      + eapply cls_filtered_file; [exact Hrb|exact He|exact X|exact N|exact N|exact H].
      + eapply cls_filtered_mem; [exact He|exact A| |exact N|exact H]. exact X.
      + eapply cls_filtered_file; [exact Hrb|exact He|exact A| |exact N|exact H]. exact X.
      + eapply cls_filtered_mem; [exact He|exact A|exact N| |exact H]. exact X.
      + eapply cls_filtered_file; [exact Hrb|exact He|exact A|exact N| |exact H]. exact X.
    - intros m l Hm Hl. assert (E : forall x, by_value (mc_cls m) x = P (value_of m f)) by (intros x; apply by_value_spec; exact Hm).
      destruct a; unfold crestrict, all_kept; rewrite ?E, ?andb_true_r.
      + destruct (w (mc_cls m) l) eqn:Ew; [|reflexivity]. destruct (P (value_of m f)) eqn:Ep; [|reflexivity]. cbn [andb].
        apply existsb_exists. exists l. rewrite Ew, E. auto.
      + destruct (w (mc_cls m) l) eqn:Ew; [|reflexivity]. cbn [andb]. destruct (P (value_of m f)) eqn:Ep.
        * apply existsb_exists. exists l. rewrite Ew, E. auto.
        * apply Bool.not_true_iff_false. intros N. apply existsb_exists in N. destruct N as (x & _ & N). rewrite E, andb_false_r in N. discriminate.
      + destruct (w (mc_cls m) l) eqn:Ew; [|reflexivity]. cbn [andb]. destruct (P (value_of m f)); [|rewrite andb_false_r; reflexivity]. rewrite andb_true_r.
        apply existsb_exists. exists l. rewrite Ew. auto.
  Qed.
End Field.

(* the remaining data of an evaluator that was built and filtered once *)
Definition selected (P : value -> bool) (f : string) (ms : list mcls) : list classification :=
  map mc_cls (filter (fun m => P (value_of m f)) ms).
Lemma combine_unzip {A B} (l : list A) (l' : list B) : length l = length l' -> map fst (combine l l') = l /\ map snd (combine l l') = l'.
Proof.
  revert l'. induction l as [|a l IH]; intros [|b l'] H; try discriminate; [split; reflexivity|]. cbn. injection H as H. destruct (IH l' H) as [-> ->]. auto.
Qed.
Lemma reduced_selected ms P f w : Forall accepted (map mc_cls ms) ->
  (forall m l, In m ms -> In l (c_predictions (mc_cls m)) -> w (mc_cls m) l = P (value_of m f)) -> reduced w (map mc_cls ms) = selected P f ms /\ winners_kept w (map mc_cls ms).
Proof.
  intros Ha Hw. split.
  - unfold reduced, selected. induction ms as [|m ms IH]; [reflexivity|]. cbn [map] in Ha. inversion Ha as [|x y [Hne Hlen] Ha' E]. subst. cbn [map filter].
    assert (Ev : visible w (mc_cls m) = P (value_of m f)).
    { unfold visible. destruct (P (value_of m f)) eqn:Ep.
      - destruct (c_predictions (mc_cls m)) as [|l ls] eqn:El; [congruence|]. cbn. rewrite (Hw m l); [rewrite Ep; reflexivity|left; reflexivity|rewrite El; left; reflexivity].
      - apply Bool.not_true_iff_false. intros N. apply existsb_exists in N. destruct N as (l & Hl & N). rewrite (Hw m l (or_introl eq_refl) Hl) in N. congruence. }
    rewrite Ev. specialize (IH Ha' (fun m l H => Hw m l (or_intror H))). destruct (P (value_of m f)) eqn:Ep; [|exact IH]. cbn [map]. f_equal; [|exact IH].
    unfold viewed. rewrite (filter_all _ (candidates (mc_cls m))).
    + unfold candidates. destruct (combine_unzip _ _ Hlen) as [-> ->]. destruct (mc_cls m); reflexivity.
    + intros [l s] Hl. cbn [fst]. rewrite (Hw m l (or_introl eq_refl)); [exact Ep|]. unfold candidates in Hl. apply in_combine_l in Hl. exact Hl.
  - intros c Hc Hv. apply in_map_iff in Hc. destruct Hc as (m & <- & Hm). assert (Hacc := proj1 (Forall_forall _ _) Ha _ (in_map mc_cls _ _ Hm)). destruct Hacc as [Hne Hlen].
    unfold visible in Hv. apply existsb_exists in Hv. destruct Hv as (l0 & Hl0 & Hv). rewrite (Hw m l0 Hm Hl0) in Hv.
    destruct (top (mc_cls m)) as [[l s]|] eqn:Et.
    + rewrite (Hw m l Hm); [exact Hv|]. unfold top in Et. destruct (candidates (mc_cls m)) as [|x t] eqn:Ec; [discriminate|]. injection Et as Et.
      assert (G : forall t b, In (top_from b t) (b :: t)).
      { clear. induction t as [|y t IH]; intros b; [left; reflexivity|]. cbn. destruct (snd b <? snd y)%Z; [right; apply IH|].
        destruct (IH b) as [E|E]; [left; exact E|right; right; exact E]. }
      specialize (G t x). rewrite Et, <- Ec in G. unfold candidates in G. apply in_combine_l in G. exact G.
    + unfold top, candidates in Et. destruct (c_predictions (mc_cls m)) as [|p ps]; [congruence|]. destruct (c_scores (mc_cls m)); discriminate.
Qed.
