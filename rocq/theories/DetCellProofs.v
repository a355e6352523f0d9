(* The confusion matrices and the pages of examples of a detection evaluator. *)
From Verif Require Import Prelude PageSpec Counting CacheModel CacheSpec CacheProofs PaginateProofs PageLemmas SortProofs ClsModel FlowModel ClsLabelProofs ClsMore ClsLemmas ClsPageProofs DetModel DetExModel DetSpec DetFlowModel DetFlowProofs
  DetFilterModel DetOrderProofs DetLocalProofs DetLoaderProofs DetStoreProofs DetMain DetConfProofs DetExampleProofs DetReportModel DetEnd DetMatchProofs DetFilterSpec DetFilterProofs DetFilterEntries
  DetFilterPruned DetFilterMain ClsCellModel ClsCellSpec DetTurnSpec DetPicture DetPictureLists DetPairOrder DetPictured DetCellModel DetCellSpec DetCellLoop.
From Coq Require Import Lia.
From Coq Require String.
Local Open Scope nat_scope.
Local Open Scope list_scope.

(* ---------------------------------------------------------------- images with nothing to show *)
Lemma hidden d : shown_image d = false -> t_gts d = [] /\ forall a, In a (t_pds d) -> scored_labels a = [].
Proof.
  unfold shown_image. intros H. apply orb_false_iff in H. destruct H as (A & B). split.
  - apply negb_false_iff, Nat.eqb_eq in A. destruct (t_gts d); [reflexivity|discriminate].
  - intros a Ha. destruct (scored_labels a) eqn:E; [reflexivity|]. exfalso.
    assert (C : existsb (fun a => negb (length (scored_labels a) =? 0)) (t_pds d) = true) by (apply existsb_exists; exists a; rewrite E; split; [exact Ha|reflexivity]). congruence.
Qed.
Lemma hidden_pairs eps t s d g p : shown_image d = false -> cell_pairs eps t s d g p = [].
Proof. intros H. destruct (hidden d H) as (E & _). unfold cell_pairs. rewrite E. reflexivity. Qed.
Lemma hidden_gts eps t s d g : shown_image d = false -> lone_gts eps t s d g = [].
Proof. intros H. destruct (hidden d H) as (E & _). unfold lone_gts. rewrite E. reflexivity. Qed.
Lemma filter_none {A} (f : A -> bool) l : (forall x, In x l -> f x = false) -> filter f l = [].
Proof. induction l as [|a l IH]; intros H; [reflexivity|]. cbn. rewrite (H a) by (left; reflexivity). apply IH. intros; apply H; right; assumption. Qed.
Lemma hidden_pds eps t s d p : shown_image d = false -> lone_pds eps t s d p = [].
Proof.
  intros H. destruct (hidden d H) as (_ & E). unfold lone_pds. rewrite filter_none; [reflexivity|].
  intros [i a] Ha. apply numbered_In in Ha. cbn [snd]. rewrite (E a (nth_error_In _ _ Ha)). reflexivity.
Qed.
Lemma shown_flat_map {X} (F : detection -> list X) ds : (forall d, shown_image d = false -> F d = []) ->
  flat_map (fun x => F (snd x)) (filter (on_page (fun _ => true)) (numbered ds)) = flat_map F ds.
Proof.
  intros H. transitivity (flat_map (fun x => F (snd x)) (numbered ds)).
  - generalize (numbered ds). induction l as [|[i d] l IH]; [reflexivity|]. cbn [filter flat_map]. unfold on_page at 1. cbn [fst snd]. rewrite andb_true_r.
    destruct (shown_image d) eqn:E; [cbn [flat_map]; rewrite IH; reflexivity|]. rewrite (H d E), IH. reflexivity.
  - rewrite !flat_map_concat_map. f_equal. unfold numbered. generalize 0. induction ds as [|d ds IH]; intros k; [reflexivity|]. cbn. f_equal. apply IH.
Qed.

Lemma flat_map_app_in {A B} (f : A -> list B) l m : flat_map f (l ++ m) = flat_map f l ++ flat_map f m.
Proof. induction l; cbn; [reflexivity|]. rewrite IHl, app_assoc. reflexivity. Qed.
Lemma flat_map_flat_map {A B C} (f : B -> list C) (g : A -> list B) l : flat_map f (flat_map g l) = flat_map (fun x => flat_map f (g x)) l.
Proof. induction l; cbn; [reflexivity|]. rewrite flat_map_app_in. congruence. Qed.
Lemma flat_map_length {A B} (f : A -> list B) l : length (flat_map f l) = list_sum_nat (map (fun x => length (f x)) l).
Proof. induction l; cbn; [reflexivity|]. rewrite app_length, IHl. reflexivity. Qed.

Lemma some_of_first {A} n (l : list A) x : In x (firstn n l) -> In x l.
Proof. intros H. rewrite <- (firstn_skipn n l). apply in_or_app. left. exact H. Qed.
Lemma some_of_skip {A} n (l : list A) x : In x (skipn n l) -> In x l.
Proof. intros H. rewrite <- (firstn_skipn n l). apply in_or_app. right. exact H. Qed.
Lemma unique_sorted {A} (key : A -> Z) (t : list A) : isort Z.leb (nodup Z.eq_dec (map key t)) = sorted_unique key t.
Proof.
  apply sorted_lt_eq.
  - apply sorted_strict; [apply isort_sorted; intros; lia|apply isort_NoDup, NoDup_nodup].
  - apply sorted_unique_lt.
  - intros x. rewrite sorted_unique_In, isort_In_iff, nodup_In. reflexivity.
Qed.

Section Cells.
  Variables (eps unit : Z) (ds : list detection) (L : list String.string) (w : dview) (e : deval).
  Hypothesis Hu : (0 <= unit)%Z.
  Hypothesis Hin : det_input unit ds.
  Hypothesis Hfew : few_det_labels ds.
  Hypothesis Hann : few_annotations ds.
  Hypothesis Hdis : Forall distinct_pd_labels ds.
  Hypothesis Hsh : shows eps unit ds L w e.
  Variables (sel : detection -> bool) (datums : drow -> bool).
  Hypothesis Hsel : det_selects ds datums sel.
  Notation u := (by_selection w sel).
  Notation ds' := (map (pruned u) ds).

  (* ---------------------------------------------------------------- labels *)
  Definition names_of : list String.string := flat_map (fun kv => match snd kv with Some v => [v] | None => [] end) (de_labels e).
  Lemma label_facts : NoDup (map fst (de_labels e)) /\
    (forall k v, In (k, v) (de_labels e) <-> exists s vi, v = Some s /\ k = Z.of_nat vi /\ index_of s L = Some vi).
  Proof.
    destruct (shows_origin eps unit ds L w e Hsh) as (e0 & He & E & HL). rewrite E.
    destruct (end_facts eps unit ds Hin e0 He) as (L0 & _ & _ & _ & B & _ & _ & C & D). split; [exact D|].
    intros k v. rewrite C. split; intros (s & vi & X & Y & Z); exists s, vi; (split; [exact X|]); (split; [exact Y|]).
    - apply HL, B. exact Z.
    - apply B, HL. exact Z.
  Qed.
  Lemma label_get v n : index_of v L = Some n -> ldict_get (de_labels e) (Z.of_nat n) = Some (Some v).
  Proof.
    intros H. destruct label_facts as (D & C). assert (I : In (Z.of_nat n, Some v) (de_labels e)) by (apply C; eauto). clear C.
    induction (de_labels e) as [|[k x] l IH]; [destruct I|]. cbn [ldict_get map fst] in *. inversion D; subst.
    destruct (Z.eqb_spec (Z.of_nat n) k) as [E|N]; destruct I as [I|I].
    - injection I as -> ->. reflexivity.
    - subst k. destruct H2. apply (in_map fst) in I. exact I.
    - congruence.
    - apply IH; assumption.
  Qed.
  Lemma names_In v : In v names_of <-> exists n, index_of v L = Some n.
  Proof.
    destruct label_facts as (_ & C). unfold names_of. rewrite in_flat_map. split.
    - intros ([k x] & I & J). apply C in I. destruct I as (s & vi & -> & -> & I). cbn in J. destruct J as [<-|[]]. eauto.
    - intros (n & H). exists (Z.of_nat n, Some v). split; [apply C; eauto|]. left. reflexivity.
  Qed.
  Lemma names_map : map snd (de_labels e) = map Some names_of.
  Proof.
    destruct label_facts as (_ & C). unfold names_of. assert (A : forall k x, In (k, x) (de_labels e) -> exists s, x = Some s) by (intros k x H; apply C in H; destruct H as (s & vi & -> & _); eauto).
    clear C. induction (de_labels e) as [|[k x] l IH]; [reflexivity|]. destruct (A k x (or_introl eq_refl)) as (s & ->). cbn. f_equal. apply IH. intros k' x' H. apply (A k' x'). right. exact H.
  Qed.
  Lemma names_NoDup : NoDup names_of.
  Proof.
    destruct label_facts as (D & C). unfold names_of.
    assert (A : forall k x, In (k, x) (de_labels e) -> exists s vi, x = Some s /\ k = Z.of_nat vi /\ index_of s L = Some vi) by (intros k x H; apply C; exact H).
    clear C. induction (de_labels e) as [|[k x] l IH]; [constructor|]. cbn [map fst flat_map] in *. inversion D; subst.
    destruct (A k x (or_introl eq_refl)) as (s & vi & -> & -> & I). cbn [snd app]. constructor; [|apply IH; [assumption|intros k' x' H; apply A; right; exact H]].
    intros J. apply in_flat_map in J. destruct J as ([k' x'] & K & J). destruct (A k' x' (or_intror K)) as (s' & vi' & -> & -> & I'). cbn in J. destruct J as [->|[]].
    assert (vi' = vi) by congruence. subst vi'. apply H1. apply (in_map fst) in K. exact K.
  Qed.
  Lemma e_named : named e ds names_of.
  Proof.
    split; [exact names_map|]. split; [exact names_NoDup|]. intros v. rewrite names_In. rewrite <- (shows_labels eps unit ds L Hin w e v Hsh). split; intros (n & H); exists n.
    - apply label_get. exact H.
    - destruct label_facts as (D & C). unfold label_no in H. assert (K : In (Z.of_nat n, Some v) (de_labels e)).
      { clear C D. induction (de_labels e) as [|[k x] l IH]; [discriminate|]. cbn in H. destruct (Z.eqb_spec (Z.of_nat n) k) as [->|N]; [injection H as ->; left; reflexivity|right; auto]. }
      apply C in K. destruct K as (s & vi & [= <-] & K1 & K2). apply Nat2Z.inj in K1. congruence.
  Qed.
  Lemma named_is names : named e ds names -> names = names_of.
  Proof.
    intros (A & _). assert (B := names_map). rewrite A in B. clear A. revert B. generalize names_of. induction names as [|a n IH]; intros [|b m] B; cbn in B; try discriminate; [reflexivity|].
    injection B as -> B. f_equal. auto.
  Qed.

  (* ---------------------------------------------------------------- one table *)
  Notation all := (fun _ : Z => true).
  Lemma part_all tb : part datums all tb = filter datums tb.
  Proof. unfold part. apply filter_all. reflexivity. Qed.
  Notation ids := (pruned_ids ds w Hann sel).
  Notation dis := (pruned_dis ds w Hdis sel).
  Notation len := (pruned_len ds w sel).
  Notation one := (pruned_one unit ds w Hu Hin sel).
  Notation pic Pd tb H := (part_pictured eps unit ds L w e Hin Hsh sel datums Hsel Pd tb H).
  Notation on tb := (images_in (filter datums tb)).
  Lemma shown_images : flat_map (fun tb => shown ds' (on tb)) (de_detailed e) = filter (on_page all) (numbered ds').
  Proof.
    rewrite <- (parts_shown eps unit ds L w e Hin Hsh sel datums Hsel all). rewrite !flat_map_concat_map, map_map. f_equal. apply map_ext. intros tb. rewrite part_all. reflexivity.
  Qed.

  (* ---------------------------------------------------------------- matrix with examples *)
  Lemma tables_fill t s tbs : (forall tb, In tb tbs -> In tb (de_detailed e)) -> forall f h q,
    fold_left (fun o tb => obind o (dcmx_table eps t s (de_labels e) (filter datums tb))) tbs (Some (dshaped names_of f h q))
    = Some (dshaped names_of
        (fun g p => f g p ++ flat_map (fun x => pairs_in (snd x) (cell_pairs eps t s (snd x) g p)) (flat_map (fun tb => shown ds' (on tb)) tbs))
        (fun g => h g ++ flat_map (fun x => lone_of (snd x) (lone_gts eps t s (snd x) g)) (flat_map (fun tb => shown ds' (on tb)) tbs))
        (fun p => q p ++ flat_map (fun x => lone_of (snd x) (lone_pds eps t s (snd x) p)) (flat_map (fun tb => shown ds' (on tb)) tbs))).
  Proof.
    induction tbs as [|tb tbs IH]; intros Hin' f h q.
    - cbn. f_equal. apply dshaped_ext; intros; rewrite app_nil_r; reflexivity.
    - cbn [fold_left obind flat_map]. assert (Pc := pic all tb (Hin' tb (or_introl eq_refl))). rewrite part_all in Pc.
      rewrite (table_fills eps t s ds' L _ _ _ _ ids dis len one Pc (de_labels e) names_of names_NoDup label_get names_In f h q).
      rewrite IH by (intros; apply Hin'; right; assumption).
      f_equal. apply dshaped_ext; intros; rewrite flat_map_app_in, app_assoc; reflexivity.
  Qed.
  Theorem det_cmx_meaning t s : det_cmx eps t s datums e = Some (dcmx_of names_of eps t s ds').
  Proof.
    unfold det_cmx. rewrite names_map, empty_shaped, tables_fill by auto. f_equal. rewrite shown_images.
    unfold dcmx_of. apply dshaped_ext; intros; cbn [app].
    - apply (shown_flat_map (fun d => pairs_in d (cell_pairs eps t s d g p)) ds'). intros d H1. rewrite (hidden_pairs _ _ _ _ _ _ H1). reflexivity.
    - apply (shown_flat_map (fun d => lone_of d (lone_gts eps t s d g)) ds'). intros d H1. rewrite (hidden_gts _ _ _ _ _ H1). reflexivity.
    - apply (shown_flat_map (fun d => lone_of d (lone_pds eps t s d g)) ds'). intros d H1. rewrite (hidden_pds _ _ _ _ _ H1). reflexivity.
  Qed.

  (* ---------------------------------------------------------------- matrix *)
  Lemma over_names {X} (F : Z -> X) (F' : String.string -> X) : (forall v n, index_of v L = Some n -> F (Z.of_nat n) = F' v) ->
    map (fun kv => (snd kv, F (fst kv))) (de_labels e) = map (fun v => (Some v, F' v)) names_of.
  Proof.
    intros H. destruct label_facts as (_ & C). unfold names_of.
    assert (A : forall k x, In (k, x) (de_labels e) -> exists s vi, x = Some s /\ k = Z.of_nat vi /\ index_of s L = Some vi) by (intros k x K; apply C; exact K).
    clear C. induction (de_labels e) as [|[k x] l IH]; [reflexivity|]. destruct (A k x (or_introl eq_refl)) as (s & vi & -> & -> & I). cbn. rewrite (H s vi I). f_equal.
    apply IH. intros k' x' K. apply A. right. exact K.
  Qed.
  Section At.
    Variables (t s : Z).
    Lemma cells_over {X} (per : list drow -> list X) (F : detection -> list X) :
      (forall tb, In tb (de_detailed e) -> per (filter datums tb) = flat_map (fun x => F (snd x)) (shown ds' (on tb))) ->
      (forall d, shown_image d = false -> F d = []) ->
      length (List.concat (map (fun tb => per (filter datums tb)) (de_detailed e))) = list_sum_nat (map (fun d => length (F d)) ds').
    Proof.
      intros H H0. rewrite (map_ext_in _ (fun tb => flat_map (fun x => F (snd x)) (shown ds' (on tb)))) by exact H.
      rewrite <- flat_map_concat_map, <- (flat_map_flat_map (fun x => F (snd x)) (fun tb => shown ds' (on tb))), shown_images, (shown_flat_map F ds' H0). apply flat_map_length.
    Qed.
    Lemma matrix_cell g gi p pi : index_of g L = Some gi -> index_of p L = Some pi ->
      dm (rep_matrix eps e datums t s) (Z.of_nat gi) (Z.of_nat pi) = list_sum_nat (map (fun d => length (cell_pairs eps t s d g p)) ds').
    Proof.
      intros Hg Hp. unfold rep_matrix. rewrite <- (proj1 (det_examples_count eps t s datums (de_detailed e) (Z.of_nat gi) (Z.of_nat pi))). unfold det_eval_cell.
      rewrite (cells_over (fun tb => det_cell_examples eps t s tb (Z.of_nat gi) (Z.of_nat pi))
        (fun d => map (fun y => (Some (t_uid d), Some (Some (a_uid (fst y))), Some (Some (a_uid (snd y))))) (cell_pairs eps t s d g p))).
      - apply list_sum_nat_ext. intros d _. apply map_length.
      - intros tb Htb. assert (Pc := pic all tb Htb). rewrite part_all in Pc. apply (cell_list eps ds' L _ _ ids dis len one _ _ Pc t s g p gi pi Hg Hp).
      - intros d H. rewrite (hidden_pairs _ _ _ _ _ _ H). reflexivity.
    Qed.
    Lemma matrix_gt g gi : index_of g L = Some gi -> dm_gt (rep_matrix eps e datums t s) (Z.of_nat gi) = list_sum_nat (map (fun d => length (lone_gts eps t s d g)) ds').
    Proof.
      intros Hg. unfold rep_matrix. rewrite <- (proj1 (proj2 (det_examples_count eps t s datums (de_detailed e) (Z.of_nat gi) 0%Z))). unfold det_eval_alone_gts.
      rewrite (cells_over (fun tb => det_alone_gt_examples eps t s tb (Z.of_nat gi)) (fun d => map (fun a => (Some (t_uid d), Some (Some (a_uid a)))) (lone_gts eps t s d g))).
      - apply list_sum_nat_ext. intros d _. apply map_length.
      - intros tb Htb. assert (Pc := pic all tb Htb). rewrite part_all in Pc. apply (lone_gts_list eps ds' L _ _ ids dis len one _ _ Pc t s g gi Hg).
      - intros d H. rewrite (hidden_gts _ _ _ _ _ H). reflexivity.
    Qed.
    Lemma matrix_pd g gi : index_of g L = Some gi -> dm_pd (rep_matrix eps e datums t s) (Z.of_nat gi) = list_sum_nat (map (fun d => length (lone_pds eps t s d g)) ds').
    Proof.
      intros Hg. unfold rep_matrix. rewrite <- (proj2 (proj2 (det_examples_count eps t s datums (de_detailed e) 0%Z (Z.of_nat gi)))). unfold det_eval_alone_pds.
      rewrite (cells_over (fun tb => det_alone_pd_examples eps t s tb (Z.of_nat gi)) (fun d => map (fun a => (Some (t_uid d), Some (Some (a_uid a)))) (lone_pds eps t s d g))).
      - apply list_sum_nat_ext. intros d _. apply map_length.
      - intros tb Htb. assert (Pc := pic all tb Htb). rewrite part_all in Pc. apply (lone_pds_list eps ds' L _ _ ids dis len one _ _ Pc t s g gi Hg).
      - intros d H. rewrite (hidden_pds _ _ _ _ _ H). reflexivity.
    Qed.
    Theorem det_counts_meaning : det_counts_of (de_labels e) (rep_matrix eps e datums t s) = counts_of names_of eps t s ds'.
    Proof.
      unfold det_counts_of, counts_of. f_equal.
      - apply (over_names (fun k => map (fun pv => (snd pv, dm (rep_matrix eps e datums t s) k (fst pv))) (de_labels e))
          (fun g => map (fun p => (Some p, list_sum_nat (map (fun d => length (cell_pairs eps t s d g p)) ds'))) names_of)).
        intros g gi Hg. apply (over_names (fun k => dm (rep_matrix eps e datums t s) (Z.of_nat gi) k)
          (fun p => list_sum_nat (map (fun d => length (cell_pairs eps t s d g p)) ds'))). intros p pi Hp. apply (matrix_cell g gi p pi Hg Hp).
      - apply (over_names (fun k => dm_gt (rep_matrix eps e datums t s) k) (fun g => list_sum_nat (map (fun d => length (lone_gts eps t s d g)) ds'))).
        intros g gi Hg. apply (matrix_gt g gi Hg).
      - apply (over_names (fun k => dm_pd (rep_matrix eps e datums t s) k) (fun g => list_sum_nat (map (fun d => length (lone_pds eps t s d g)) ds'))).
        intros g gi Hg. apply (matrix_pd g gi Hg).
    Qed.
  End At.

  (* ---------------------------------------------------------------- pages of examples *)
  Section Pages.
    Variables (ious scores : list Z) (limit : option nat) (offset : nat).
    Notation pages := (paginate_index d_datum datums limit offset (de_detailed e)).
    Definition image_at (k : Z) : list (option String.string * Z * Z * det_example) :=
      match nth_error ds' (Z.to_nat k) with Some d => image_examples eps ious scores d | None => [] end.
    Lemma page_table tb' k : In tb' pages -> In k (sorted_unique d_datum tb') ->
      List.concat (map (fun t => map (fun s => (det_datum_uid tb' k, t, s, det_datum_example eps t s tb' k)) scores) ious) = image_at k.
    Proof.
      intros Ht Hk. apply paginate_tables in Ht. destruct Ht as (tb & Pd & Htb & ->).
      apply sorted_unique_In in Hk. apply in_map_iff in Hk. destruct Hk as (r & <- & Hr).
      assert (Pc := pic Pd tb Htb). unfold part in Pc.
      destruct (row_datum _ _ _ _ _ _ _ Pc r Hr) as (i & d & O & D & E & _). rewrite E.
      unfold image_at. rewrite Nat2Z.id, D. unfold image_examples. rewrite <- flat_map_concat_map. apply flat_map_ext. intros t. apply map_ext. intros s.
      rewrite (datum_uid_on eps ds' L _ _ len one _ _ Pc i d r Hr E D).
      rewrite (example_lists eps ds' L _ _ ids dis len one (small_L eps unit ds L w e Hin Hfew Hsh) _ _ Pc t s i d O D). reflexivity.
    Qed.
    Lemma shown_keys : List.concat (map (sorted_unique d_datum) (map (filter datums) (de_detailed e))) = map (fun x => Z.of_nat (fst x)) (filter (on_page all) (numbered ds')).
    Proof.
      assert (Hgood := shows_good eps unit ds L w e Hin Hsh).
      apply sorted_lt_eq.
      - apply in_order_keys. apply in_order_map; [intros tb a H; apply filter_In in H; apply H|].
        assert (O := g_order _ _ _ _ _ _ Hgood). apply ordered_tables in O. exact O.
      - assert (S : StronglySorted earlier (filter (on_page all) (numbered ds'))) by (apply StronglySorted_filter, numbered_sorted).
        induction S as [|x l S IH Hx]; [constructor|]. cbn. constructor; [exact IH|]. apply Forall_forall. intros y Hy. apply in_map_iff in Hy. destruct Hy as (z & <- & Hz).
        rewrite Forall_forall in Hx. specialize (Hx z Hz). unfold earlier in Hx. lia.
      - intros k. rewrite keys_In, in_map_iff. split.
        + intros (r & Hr & <-). apply in_concat in Hr. destruct Hr as (tb' & Ht & Hr). apply in_map_iff in Ht. destruct Ht as (tb & <- & Htb).
          assert (Pc := pic all tb Htb). rewrite part_all in Pc. destruct (row_datum _ _ _ _ _ _ _ Pc r Hr) as (i & d & O & D & E & _).
          exists (i, d). split; [cbn; congruence|]. rewrite <- shown_images. apply in_flat_map. exists tb. split; [exact Htb|]. apply shown_In. split; assumption.
        + intros ([i d] & E & H). rewrite <- shown_images in H. apply in_flat_map in H. destruct H as (tb & Htb & H). apply shown_In in H. destruct H as (O & _).
          apply images_in_iff in O. destruct O as (r & Hr & Er). exists r. split; [|cbn in E; congruence].
          apply in_concat. exists (filter datums tb). split; [apply in_map; exact Htb|exact Hr].
    Qed.
    Theorem det_page_meaning : det_eval_examples eps ious scores pages
      = flat_map (image_examples eps ious scores) (page_of limit offset (filter shown_image ds')).
    Proof.
      transitivity (flat_map image_at (List.concat (map (sorted_unique d_datum) pages))).
      - unfold det_eval_examples. rewrite <- flat_map_concat_map.
        rewrite (flat_map_concat_map image_at), concat_map, map_map.
        assert (G : forall tbs, (forall tb, In tb tbs -> In tb pages) ->
          flat_map (fun tb => List.concat (map (fun d => List.concat (map (fun t => map (fun s => (det_datum_uid tb d, t, s, det_datum_example eps t s tb d)) scores) ious))
            (isort Z.leb (nodup Z.eq_dec (map d_datum tb))))) tbs
          = List.concat (List.concat (map (fun x => map image_at (sorted_unique d_datum x)) tbs))).
        { induction tbs as [|tb tbs IH]; intros H; [reflexivity|]. cbn [flat_map map List.concat]. rewrite concat_app, IH by (intros; apply H; right; assumption).
          f_equal. f_equal. rewrite unique_sorted.
          apply map_ext_in. intros k Hk. apply page_table; [apply H; left; reflexivity|exact Hk]. }
        apply G. auto.
      - rewrite paginate_keys, shown_keys, <- page_map.
        transitivity (flat_map (image_examples eps ious scores) (map snd (page_of limit offset (filter (on_page all) (numbered ds'))))).
        + assert (S : forall x, In x (page_of limit offset (filter (on_page all) (numbered ds'))) -> nth_error ds' (fst x) = Some (snd x)).
          { intros [i d] H. apply numbered_In. assert (I : In (i, d) (filter (on_page all) (numbered ds'))).
            { unfold page_of in H. destruct limit as [[|n]|]; [eapply some_of_skip; exact H| |eapply some_of_skip; exact H]. apply some_of_first in H. eapply some_of_skip; exact H. }
            apply filter_In in I. apply I. }
          induction (page_of limit offset (filter (on_page all) (numbered ds'))) as [|x l IH]; [reflexivity|]. cbn [map flat_map]. rewrite IH by (intros; apply S; right; assumption).
          f_equal. unfold image_at. rewrite Nat2Z.id, (S x (or_introl eq_refl)). reflexivity.
        + f_equal. rewrite page_map. f_equal. transitivity (flat_map (fun d => if shown_image d then [d] else []) ds').
          * rewrite <- (shown_flat_map (fun d => if shown_image d then [d] else []) ds') by (intros d H; rewrite H; reflexivity).
            generalize (numbered ds'). induction l as [|[i d] l IH]; [reflexivity|]. cbn [filter]. assert (X : on_page all (i, d) = shown_image d) by (unfold on_page; cbn; apply andb_true_r). rewrite X.
            destruct (shown_image d) eqn:E; [|exact IH]. cbn [map flat_map snd]. rewrite E, IH. reflexivity.
          * induction ds' as [|d l IH]; [reflexivity|]. cbn [flat_map filter]. destruct (shown_image d); cbn; rewrite IH; reflexivity.
    Qed.
  End Pages.
End Cells.

(* ---------------------------------------------------------------- the metrics *)
Lemma det_confusion_meaning eps unit ds L w e : (0 <= unit)%Z -> det_input unit ds -> few_annotations ds ->
  Forall distinct_pd_labels ds -> shows eps unit ds L w e -> forall sel datums, det_selects ds datums sel ->
  forall names, named e ds names -> forall ious scores, ious <> [] -> scores <> [] ->
  det_confusion_metrics eps ious scores datums e
  = Some (flat_map (fun t => map (fun s => (t, s, counts_of names eps t s (map (pruned (by_selection w sel)) ds))) scores) ious).
Proof.
  intros Hu Hin Hann Hdis Hsh sel datums Hsel names Hn ious scores Hi Hs. apply (named_is eps unit ds L w e Hin Hsh) in Hn. subst names. unfold det_confusion_metrics.
  destruct ious as [|t0 ious]; [congruence|]. destruct scores as [|s0 scores]; [congruence|]. f_equal. apply flat_map_ext. intros t. apply map_ext. intros s.
  rewrite (det_counts_meaning eps unit ds L w e Hu Hin Hann Hdis Hsh sel datums Hsel t s). reflexivity.
Qed.
Lemma det_confusion_examples_meaning eps unit ds L w e : (0 <= unit)%Z -> det_input unit ds -> few_annotations ds ->
  Forall distinct_pd_labels ds -> shows eps unit ds L w e -> forall sel datums, det_selects ds datums sel ->
  forall names, named e ds names -> forall ious scores, ious <> [] -> scores <> [] ->
  det_confusion_examples eps ious scores datums e
  = Some (flat_map (fun t => map (fun s => (t, s, Some (dcmx_of names eps t s (map (pruned (by_selection w sel)) ds)))) scores) ious).
Proof.
  intros Hu Hin Hann Hdis Hsh sel datums Hsel names Hn ious scores Hi Hs. apply (named_is eps unit ds L w e Hin Hsh) in Hn. subst names. unfold det_confusion_examples.
  destruct ious as [|t0 ious]; [congruence|]. destruct scores as [|s0 scores]; [congruence|]. f_equal. apply flat_map_ext. intros t. apply map_ext. intros s.
  rewrite (det_cmx_meaning eps unit ds L w e Hu Hin Hann Hdis Hsh sel datums Hsel t s). reflexivity.
Qed.
Lemma det_examples_meaning eps unit ds L w e : (0 <= unit)%Z -> det_input unit ds -> few_det_labels ds -> few_annotations ds ->
  Forall distinct_pd_labels ds -> shows eps unit ds L w e -> forall sel datums, det_selects ds datums sel ->
  forall ious scores limit offset, ious <> [] -> scores <> [] ->
  det_examples eps ious scores datums limit offset e
  = Some (flat_map (image_examples eps ious scores) (page_of limit offset (filter shown_image (map (pruned (by_selection w sel)) ds)))).
Proof.
  intros Hu Hin Hfew Hann Hdis Hsh sel datums Hsel ious scores limit offset Hi Hs. unfold det_examples.
  rewrite (det_page_meaning eps unit ds L w e Hu Hin Hfew Hann Hdis Hsh sel datums Hsel ious scores limit offset).
  destruct ious as [|t0 ious]; [congruence|]. destruct scores as [|s0 scores]; [congruence|]. reflexivity.
Qed.
Lemma det_examples_pages eps unit ds L w e : (0 <= unit)%Z -> det_input unit ds -> few_det_labels ds -> few_annotations ds ->
  Forall distinct_pd_labels ds -> shows eps unit ds L w e -> forall sel datums, det_selects ds datums sel ->
  forall ious scores n k, ious <> [] -> scores <> [] -> length (filter shown_image (map (pruned (by_selection w sel)) ds)) <= k * S n ->
  List.concat (map (fun i => match det_examples eps ious scores datums (Some (S n)) (i * S n) e with Some l => l | None => [] end) (seq 0 k))
  = match det_examples eps ious scores datums None 0 e with Some l => l | None => [] end.
Proof.
  intros Hu Hin Hfew Hann Hdis Hsh sel datums Hsel ious scores n k Hi Hs Hk.
  set (X := filter shown_image (map (pruned (by_selection w sel)) ds)) in *.
  transitivity (flat_map (image_examples eps ious scores) (List.concat (map (fun i => page_of (Some (S n)) (i * S n) X) (seq 0 k)))).
  - rewrite flat_map_concat_map, concat_map, map_map. induction (seq 0 k) as [|i l IH]; [reflexivity|]. cbn [map List.concat]. rewrite concat_app, IH. f_equal.
    rewrite (det_examples_meaning eps unit ds L w e Hu Hin Hfew Hann Hdis Hsh sel datums Hsel ious scores _ _ Hi Hs). apply flat_map_concat_map.
  - rewrite pages_concat. rewrite (det_examples_meaning eps unit ds L w e Hu Hin Hfew Hann Hdis Hsh sel datums Hsel ious scores _ _ Hi Hs).
    rewrite firstn_all2 by exact Hk. reflexivity.
Qed.

(* the counts without examples are those of the matrix with examples *)
Lemma forget_counts names eps t s ds : forget (dcmx_of names eps t s ds) = counts_of names eps t s ds.
Proof.
  unfold forget, dcmx_of, counts_of, counted. cbn [dx_cells dx_gts dx_pds]. rewrite !map_map. f_equal.
  - apply map_ext. intros g. cbn [fst snd]. f_equal. rewrite map_map. apply map_ext. intros p. cbn [fst snd]. f_equal. rewrite flat_map_length.
    apply list_sum_nat_ext. intros d _. apply map_length.
  - apply map_ext. intros g. cbn [fst snd]. f_equal. rewrite flat_map_length. apply list_sum_nat_ext. intros d _. apply map_length.
  - apply map_ext. intros g. cbn [fst snd]. f_equal. rewrite flat_map_length. apply list_sum_nat_ext. intros d _. apply map_length.
Qed.

(* looking up a label does not depend on the order of the labels *)
Lemma lget_map {V} (F : String.string -> V) names g : lget (map (fun v => (Some v, F v)) names) (Some g) = if in_dec String.string_dec g names then Some (F g) else None.
Proof.
  induction names as [|a l IH]; [reflexivity|]. unfold lget in *. cbn [map find]. cbn [fst lkey_eqb]. destruct (String.eqb_spec a g) as [->|N].
  - cbn. destruct (String.string_dec g g); [reflexivity|congruence].
  - rewrite IH. destruct (in_dec String.string_dec g l) as [H|H], (in_dec String.string_dec g (a :: l)) as [H'|H']; try reflexivity.
    + destruct H'. right. exact H.
    + destruct H' as [H'|H']; [congruence|contradiction].
Qed.
Lemma lget_same {V} (F : String.string -> V) ns ns' g : (forall v, In v ns <-> In v ns') ->
  lget (map (fun v => (Some v, F v)) ns) (Some g) = lget (map (fun v => (Some v, F v)) ns') (Some g).
Proof.
  intros H. rewrite !lget_map. destruct (in_dec _ g ns) as [A|A], (in_dec _ g ns') as [B|B]; try reflexivity; exfalso; apply H in A || apply H in B; contradiction.
Qed.
Lemma det_cmx_storage eps t s unit ds L L' w e e' : (0 <= unit)%Z -> det_input unit ds -> few_annotations ds ->
  Forall distinct_pd_labels ds -> shows eps unit ds L w e -> shows eps unit ds L' w e' -> forall sel datums, det_selects ds datums sel ->
  forall M M', det_cmx eps t s datums e = Some M -> det_cmx eps t s datums e' = Some M' ->
  forall g, (forall p, dcell_at M g p = dcell_at M' g p) /\ lget (dx_gts M) (Some g) = lget (dx_gts M') (Some g) /\ lget (dx_pds M) (Some g) = lget (dx_pds M') (Some g).
Proof.
  intros Hu Hin Hann Hdis Hsh Hsh' sel datums Hsel M M' HM HM' g.
  rewrite (det_cmx_meaning eps unit ds L w e Hu Hin Hann Hdis Hsh sel datums Hsel t s) in HM.
  rewrite (det_cmx_meaning eps unit ds L' w e' Hu Hin Hann Hdis Hsh' sel datums Hsel t s) in HM'. injection HM as <-. injection HM' as <-.
  destruct (e_named eps unit ds L w e Hin Hsh) as (_ & _ & A). destruct (e_named eps unit ds L' w e' Hin Hsh') as (_ & _ & B).
  assert (S : forall v, In v (names_of e) <-> In v (names_of e')) by (intros v; rewrite A, B; reflexivity).
  split; [|split].
  - intros p. unfold dcell_at, dcmx_of. cbn [dx_cells]. rewrite !lget_map. destruct (in_dec _ g (names_of e)) as [I|I], (in_dec _ g (names_of e')) as [J|J];
      [|exfalso; apply J, S, I|exfalso; apply I, S, J|reflexivity]. apply lget_same. exact S.
  - unfold dcmx_of. cbn [dx_gts]. apply lget_same. exact S.
  - unfold dcmx_of. cbn [dx_pds]. apply lget_same. exact S.
Qed.
