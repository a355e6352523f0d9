(* The confusion matrix with examples and the pages of examples of a filtered object detection
   cache that is loaded without its labels. *)
From Verif Require Import Prelude PageSpec Counting CacheModel CacheSpec CacheProofs PaginateProofs PageLemmas SortProofs ClsModel FlowModel ClsLabelProofs ClsMore ClsLemmas ClsPageProofs DetModel DetExModel DetSpec DetFlowModel DetFlowProofs
  DetFilterModel DetOrderProofs DetLocalProofs DetLoaderProofs DetStoreProofs DetMain DetConfProofs DetExampleProofs DetReportModel DetEnd DetMatchProofs DetFilterSpec DetFilterProofs DetFilterEntries
  DetFilterPruned DetFilterMain ClsCellModel ClsCellSpec DetTurnSpec DetPicture DetPictureLists DetPairOrder DetPictured DetCellModel DetCellSpec DetCellLoop DetCellProofs DetLoadSpec DetLoadProofs.
From Coq Require Import Lia Permutation.
From Coq Require String.
Local Open Scope nat_scope.
Local Open Scope list_scope.

Lemma pick_ext {K X} (f f' : K -> option (lkey * X)) g l : (forall k, In k l -> f k = f' k) -> pick f g l = pick f' g l.
Proof. intros H. unfold pick. rewrite !flat_map_concat_map. f_equal. apply map_ext_in. intros k Hk. rewrite (H k Hk). reflexivity. Qed.
Lemma pick2_ext {K X} (f f' : K -> option (lkey * lkey * X)) g p l : (forall k, In k l -> f k = f' k) -> pick2 f g p l = pick2 f' g p l.
Proof. intros H. unfold pick2. rewrite !flat_map_concat_map. f_equal. apply map_ext_in. intros k Hk. rewrite (H k Hk). reflexivity. Qed.

Section Left.
  Variables (eps unit : Z) (ds : list detection) (L : list String.string) (w : dview) (e : deval).
  Hypothesis Hu : (0 <= unit)%Z.
  Hypothesis Hin : det_input unit ds.
  Hypothesis Hann : few_annotations ds.
  Hypothesis Hdis : Forall distinct_pd_labels ds.
  Hypothesis Hsh : shows eps unit ds L w e.
  Variables (sel : detection -> bool) (datums : drow -> bool).
  Hypothesis Hsel : det_selects ds datums sel.
  Notation u := (by_selection w sel).
  Notation ds' := (map (pruned u) ds).
  Notation D := (det_extract_labels (de_detailed e)).
  Notation loaded := (MkDE (de_detailed e) (de_ranked e) D).
  Lemma D_sound : sound_ldict L D.
  Proof. apply (extract_sound eps unit ds L w e Hin Hsh). Qed.

  Definition left_names : list String.string := flat_map (fun kv => match snd kv with Some v => [v] | None => [] end) D.
  Lemma D_entry k x : In (k, x) D -> exists v vi, x = Some v /\ k = Z.of_nat vi /\ index_of v L = Some vi /\ label_left ds w v.
  Proof.
    intros H. destruct D_sound as (_ & HS). destruct (HS _ _ H) as (H0 & v & -> & Hv).
    assert (K : In k (map fst D)) by (apply in_map_iff; exists (k, Some v); auto). apply (extract_keys eps unit ds L w e Hin Hsh) in K.
    destruct K as (v' & vi & -> & Hx & HL). rewrite Nat2Z.id in Hv. assert (Hx' := Hx). apply index_of_nth in Hx'. assert (v' = v) by congruence. subst v'. eauto 6.
  Qed.
  Lemma left_map : map snd D = map Some left_names.
  Proof.
    unfold left_names. assert (A : forall k x, In (k, x) D -> exists s, x = Some s) by (intros k x H; apply D_entry in H; destruct H as (s & vi & -> & _); eauto).
    induction D as [|[k x] l IH]; [reflexivity|]. destruct (A k x (or_introl eq_refl)) as (s & ->). cbn. f_equal. apply IH. intros k' x' H. apply (A k' x'). right. exact H.
  Qed.
  Lemma D_get v n : index_of v L = Some n -> In (Z.of_nat n) (map fst D) -> ldict_get D (Z.of_nat n) = Some (Some v).
  Proof.
    intros Hx H. apply in_map_iff in H. destruct H as ([k x] & E & H). cbn [fst] in E. subst k. destruct (D_entry _ _ H) as (v' & vi & -> & E & Hx' & _).
    apply Nat2Z.inj in E. subst vi. rewrite (index_inj L v v' n Hx Hx'). apply (ldict_get_In L _ _ _ D_sound). exact H.
  Qed.
  Lemma left_In v : In v left_names <-> label_left ds w v /\ exists n, index_of v L = Some n.
  Proof.
    unfold left_names. rewrite in_flat_map. split.
    - intros ([k x] & I & J). apply D_entry in I. destruct I as (s & vi & -> & -> & Hx & HL). cbn in J. destruct J as [<-|[]]. eauto.
    - intros (HL & n & Hx). assert (K : In (Z.of_nat n) (map fst D)) by (apply (extract_keys eps unit ds L w e Hin Hsh); eauto).
      exists (Z.of_nat n, Some v). split; [|left; reflexivity]. apply (ldict_get_In L _ _ _ D_sound). apply D_get; assumption.
  Qed.
  Lemma left_NoDup : NoDup left_names.
  Proof.
    destruct D_sound as (ND & _). unfold left_names.
    assert (A : forall k x, In (k, x) D -> exists s vi, x = Some s /\ k = Z.of_nat vi /\ index_of s L = Some vi) by (intros k x H; apply D_entry in H; destruct H as (s & vi & A & B & C & _); eauto).
    induction D as [|[k x] l IH]; [constructor|]. cbn [map fst flat_map] in *. inversion ND; subst.
    destruct (A k x (or_introl eq_refl)) as (s & vi & -> & -> & I). cbn [snd app]. constructor; [|apply IH; [assumption|intros k' x' H; apply A; right; exact H]].
    intros J. apply in_flat_map in J. destruct J as ([k' x'] & K & J). destruct (A k' x' (or_intror K)) as (s' & vi' & -> & -> & I'). cbn in J. destruct J as [->|[]].
    assert (vi' = vi) by congruence. subst vi'. apply H1. apply (in_map fst) in K. exact K.
  Qed.

  (* every label number of a row is a key *)
  Lemma gl_key tb r n : In tb (de_detailed e) -> In r (filter datums tb) -> d_gl r = Z.of_nat n -> In (Z.of_nat n) (map fst D).
  Proof.
    intros Ht Hr E. apply filter_In in Hr. apply (proj2 (det_extract_gen L (de_detailed e) (row_ids eps unit ds L w e Hin Hsh))). split; [|lia]. left. rewrite <- E. apply in_map.
    apply in_concat. exists tb. tauto.
  Qed.
  Lemma pl_key tb r n : In tb (de_detailed e) -> In r (filter datums tb) -> d_pl r = Z.of_nat n -> In (Z.of_nat n) (map fst D).
  Proof.
    intros Ht Hr E. apply filter_In in Hr. apply (proj2 (det_extract_gen L (de_detailed e) (row_ids eps unit ds L w e Hin Hsh))). split; [|lia]. right. rewrite <- E. apply in_map.
    apply in_concat. exists tb. tauto.
  Qed.

  Notation all := (fun _ : Z => true).
  Notation ids := (pruned_ids ds w Hann sel).
  Notation dis := (pruned_dis ds w Hdis sel).
  Notation len := (pruned_len ds w sel).
  Notation one := (pruned_one unit ds w Hu Hin sel).
  Notation pic Pd tb H := (part_pictured eps unit ds L w e Hin Hsh sel datums Hsel Pd tb H).
  Notation on tb := (images_in (filter datums tb)).
  Notation A := (de_labels e).
  Notation N := (names_of e).
  Notation NN := (names_NoDup eps unit ds L w e Hin Hsh).
  Notation NI := (names_In eps unit ds L w e Hin Hsh).
  Notation LG := (label_get eps unit ds L w e Hin Hsh).

  Lemma left_in_names v : In v left_names -> In v N.
  Proof. intros H. apply left_In in H. apply NI, H. Qed.
  Lemma D_both n v : index_of v L = Some n -> In (Z.of_nat n) (map fst D) -> ldict_get D (Z.of_nat n) = ldict_get A (Z.of_nat n) /\ In v left_names.
  Proof.
    intros Hx K. rewrite (D_get v n Hx K), (LG v n Hx). split; [reflexivity|]. apply left_In. apply (extract_keys eps unit ds L w e Hin Hsh) in K.
    destruct K as (v' & vi & E & Hx' & HL). apply Nat2Z.inj in E. subst vi. rewrite (index_inj L v v' n Hx Hx'). split; [exact HL|]. exists n. exact Hx'.
  Qed.

  Section Table.
    Variables (t s : Z) (tb : list drow) (G P : nat -> nat -> Z).
    Hypothesis Ht : In tb (de_detailed e).
    Notation rows := (filter datums tb).
    Hypothesis Hpic : pictured eps ds' L G P (on tb) rows.
    Hypothesis Hids : ids_increase ds' G P.

    Lemma left_gt k : In k (unique_alone_gts eps t s rows) -> lone_gt_entry D rows k = lone_gt_entry A rows k /\
      exists v x, lone_gt_entry D rows k = Some (Some v, x) /\ In v left_names.
    Proof.
      intros H. assert (H' := H). apply isort_dkeys_In in H'. destruct H' as (r & Hr & _ & Er).
      destruct (lone_gt_known eps t s ds' L _ _ _ _ Hids len one Hpic A LG k H) as (v & n & x & y & E1 & E2 & _ & _ & E3).
      assert (K : In (Z.of_nat n) (map fst D)) by (apply (gl_key tb r n Ht Hr); rewrite <- E1, <- Er; reflexivity).
      destruct (D_both n v E2 K) as (B1 & B2). assert (X : lone_gt_entry D rows k = lone_gt_entry A rows k) by (unfold lone_gt_entry; rewrite E1, B1; reflexivity).
      split; [exact X|]. exists v, (x, y). rewrite X. split; assumption.
    Qed.
    Lemma left_pd k : In k (unique_alone_pds eps t s rows) -> lone_pd_entry D rows k = lone_pd_entry A rows k /\
      exists v x, lone_pd_entry D rows k = Some (Some v, x) /\ In v left_names.
    Proof.
      intros H. assert (H' := H). apply isort_dkeys_In in H'. destruct H' as (r & Hr & _ & Er).
      destruct (lone_pd_known eps t s ds' L _ _ _ _ Hids len one Hpic A LG k H) as (v & n & x & y & E1 & E2 & _ & _ & E3).
      assert (K : In (Z.of_nat n) (map fst D)) by (apply (pl_key tb r n Ht Hr); rewrite <- E1, <- Er; reflexivity).
      destruct (D_both n v E2 K) as (B1 & B2). assert (X : lone_pd_entry D rows k = lone_pd_entry A rows k) by (unfold lone_pd_entry; rewrite E1, B1; reflexivity).
      split; [exact X|]. exists v, (x, y). rewrite X. split; assumption.
    Qed.
    Lemma left_pair k : In k (unique_pairs eps t s rows) -> match_entry D rows k = match_entry A rows k /\
      exists v v' x, match_entry D rows k = Some (Some v, Some v', x) /\ In v left_names /\ In v' left_names.
    Proof.
      intros H. assert (H' := H). apply isort_dkeys_In in H'. destruct H' as (r & Hr & _ & Er).
      destruct (pair_known eps t s ds' L _ _ _ _ Hids dis len one Hpic A LG k H) as (v & n & v' & m & x & y & z & E1 & E2 & E3 & E4 & _ & _ & _ & E5).
      assert (K : In (Z.of_nat n) (map fst D)) by (apply (gl_key tb r n Ht Hr); rewrite <- E1, <- Er; reflexivity).
      assert (K' : In (Z.of_nat m) (map fst D)) by (apply (pl_key tb r m Ht Hr); rewrite <- E3, <- Er; reflexivity).
      destruct (D_both n v E2 K) as (B1 & B2). destruct (D_both m v' E4 K') as (B3 & B4).
      assert (X : match_entry D rows k = match_entry A rows k) by (unfold match_entry; destruct k as [[[[? ?] ?] gl] pl]; cbn [fst snd] in E1, E3; rewrite E1, E3, B1, B3; reflexivity).
      split; [exact X|]. exists v, v', (x, y, z). rewrite X. auto.
    Qed.
    Lemma left_fills f h q : dcmx_table eps t s D rows (dshaped left_names f h q)
      = Some (dshaped left_names
          (fun g p => f g p ++ flat_map (fun x => pairs_in (snd x) (cell_pairs eps t s (snd x) g p)) (shown ds' (on tb)))
          (fun g => h g ++ flat_map (fun x => lone_of (snd x) (lone_gts eps t s (snd x) g)) (shown ds' (on tb)))
          (fun g => q g ++ flat_map (fun x => lone_of (snd x) (lone_pds eps t s (snd x) g)) (shown ds' (on tb)))).
    Proof.
      rewrite (dcmx_table_shape eps t s D rows left_names left_NoDup).
      - f_equal. apply dshaped_ext; intros.
        + rewrite (pick2_ext _ (match_entry A rows)) by (intros; apply left_pair; assumption).
          rewrite (table_pairs eps t s ds' L _ _ _ _ Hids dis len one Hpic A N LG NI) by (apply left_in_names; assumption). reflexivity.
        + rewrite (pick_ext _ (lone_gt_entry A rows)) by (intros; apply left_gt; assumption).
          rewrite (table_gts eps t s ds' L _ _ _ _ Hids dis len one Hpic A N LG NI) by (apply left_in_names; assumption). reflexivity.
        + rewrite (pick_ext _ (lone_pd_entry A rows)) by (intros; apply left_pd; assumption).
          rewrite (table_pds eps t s ds' L _ _ _ _ Hids dis len one Hpic A N LG NI) by (apply left_in_names; assumption). reflexivity.
      - intros k Hk. apply left_gt. exact Hk.
      - intros k Hk. apply left_pd. exact Hk.
      - intros k Hk. apply left_pair. exact Hk.
    Qed.
  End Table.

  Lemma left_tables t s tbs : (forall tb, In tb tbs -> In tb (de_detailed e)) -> forall f h q,
    fold_left (fun o tb => obind o (dcmx_table eps t s D (filter datums tb))) tbs (Some (dshaped left_names f h q))
    = Some (dshaped left_names
        (fun g p => f g p ++ flat_map (fun x => pairs_in (snd x) (cell_pairs eps t s (snd x) g p)) (flat_map (fun tb => shown ds' (on tb)) tbs))
        (fun g => h g ++ flat_map (fun x => lone_of (snd x) (lone_gts eps t s (snd x) g)) (flat_map (fun tb => shown ds' (on tb)) tbs))
        (fun p => q p ++ flat_map (fun x => lone_of (snd x) (lone_pds eps t s (snd x) p)) (flat_map (fun tb => shown ds' (on tb)) tbs))).
  Proof.
    induction tbs as [|tb tbs IH]; intros Hin' f h q.
    - cbn. f_equal. apply dshaped_ext; intros; rewrite app_nil_r; reflexivity.
    - cbn [fold_left obind flat_map]. assert (Pc := pic all tb (Hin' tb (or_introl eq_refl))). rewrite part_all in Pc.
      rewrite (left_fills t s tb _ _ (Hin' tb (or_introl eq_refl)) Pc ids f h q).
      rewrite IH by (intros; apply Hin'; right; assumption).
      f_equal. apply dshaped_ext; intros; rewrite flat_map_app_in, app_assoc; reflexivity.
  Qed.
  Theorem loaded_cmx t s : det_cmx eps t s datums loaded = Some (dcmx_of left_names eps t s ds').
  Proof.
    unfold det_cmx. cbn [de_labels de_detailed]. rewrite left_map, empty_shaped, left_tables by auto. f_equal.
    rewrite (shown_images eps unit ds L w e Hin Hsh sel datums Hsel).
    unfold dcmx_of. apply dshaped_ext; intros; cbn [app].
    - apply (shown_flat_map (fun d => pairs_in d (cell_pairs eps t s d g p)) ds'). intros d H1. rewrite (hidden_pairs _ _ _ _ _ _ H1). reflexivity.
    - apply (shown_flat_map (fun d => lone_of d (lone_gts eps t s d g)) ds'). intros d H1. rewrite (hidden_gts _ _ _ _ _ H1). reflexivity.
    - apply (shown_flat_map (fun d => lone_of d (lone_pds eps t s d g)) ds'). intros d H1. rewrite (hidden_pds _ _ _ _ _ H1). reflexivity.
  Qed.
End Left.

(* ---------------------------------------------------------------- loading without labels *)
Lemma left_is_label ds w v : label_left ds w v -> In v (det_labels ds).
Proof.
  intros (d & Hd & H). unfold det_labels. apply in_concat. eexists. split; [apply in_map; exact Hd|]. apply in_concat.
  destruct H as [(g & a & H & Hv & _)|(p & a & H & Hv & _)]; exists (a_labels a); (split; [apply in_map, in_or_app|exact Hv]); [left|right]; apply (nth_error_In _ _ H).
Qed.
Section File.
  Variables (eps unit : Z) (ds : list detection) (L : list String.string) (w : dview) (e : deval).
  Hypothesis Hu : (0 <= unit)%Z.
  Hypothesis Hin : det_input unit ds.
  Hypothesis Hann : few_annotations ds.
  Hypothesis Hdis : Forall distinct_pd_labels ds.
  Hypothesis Hsh : shows eps unit ds L w e.
  Variables (bs rpf : nat) (rb : list drow -> list (list drow)) (dat : drow -> bool) (gts pds : option (drow -> bool)).
  Variables (sel : detection -> bool) (sg : detection -> nat -> bool) (sp : detection -> nat -> String.string -> bool).
  Variables (b : dfb) (labels : ldict) (l1 l2 : dir drow).
  Hypothesis Hrb : batching_ok rb.
  Hypothesis Hsel : det_selects ds dat sel.
  Hypothesis Hsg : gt_filter ds L gts sg.
  Hypothesis Hsp : pd_filter ds L pds sp.
  Hypothesis Hb : det_filter_build unit bs rpf rb e dat gts pds = (b, Done labels).
  Hypothesis H1 : Permutation l1 (f_dir (dfb_detailed b)).
  Hypothesis H2 : Permutation l2 (f_dir (dfb_ranked b)).
  Local Notation u := (restrict w sel sg sp).
  Local Notation full := (det_load l1 l2 (Some labels)).
  Lemma file_shows : shows eps unit ds L u full.
  Proof. eapply full_shows; eassumption. Qed.

  Theorem file_examples ious scores datums sel' limit offset : few_det_labels ds -> det_selects ds datums sel' -> ious <> [] -> scores <> [] ->
    det_examples eps ious scores datums limit offset (det_load l1 l2 None)
    = Some (flat_map (image_examples eps ious scores) (page_of limit offset (filter shown_image (map (pruned (by_selection u sel')) ds)))).
  Proof.
    intros Hfew Hs' Hi Hs. change (det_examples eps ious scores datums limit offset (det_load l1 l2 None)) with (det_examples eps ious scores datums limit offset full).
    apply (det_examples_meaning eps unit ds L u full Hu Hin Hfew Hann Hdis file_shows sel' datums Hs' ious scores limit offset Hi Hs).
  Qed.
  Theorem file_matrix : exists names,
    map snd (de_labels (det_load l1 l2 None)) = map Some names /\ NoDup names /\ (forall v, In v names <-> label_left ds u v) /\
    forall datums sel', det_selects ds datums sel' -> forall ious scores, ious <> [] -> scores <> [] ->
    det_confusion_examples eps ious scores datums (det_load l1 l2 None)
    = Some (flat_map (fun t => map (fun s => (t, s, Some (dcmx_of names eps t s (map (pruned (by_selection u sel')) ds)))) scores) ious).
  Proof.
    exists (left_names full). split; [apply (left_map eps unit ds L u full Hin file_shows)|]. split; [apply (left_NoDup eps unit ds L u full Hin file_shows)|]. split.
    - intros v. rewrite (left_In eps unit ds L u full Hin file_shows v). split; [tauto|]. intros H. split; [exact H|]. apply left_is_label in H.
      apply (shows_labels eps unit ds L Hin u full v file_shows) in H. destruct H as (n & H). exists n.
      apply (g_labels _ _ _ _ _ _ (shows_good eps unit ds L u full Hin file_shows)). exact H.
    - intros datums sel' Hs' ious scores Hi Hs. unfold det_confusion_examples. destruct ious as [|t0 ts]; [congruence|]. destruct scores as [|s0 ss]; [congruence|].
      f_equal. rewrite !flat_map_concat_map. f_equal. apply map_ext. intros t. apply map_ext. intros s. f_equal.
      apply (loaded_cmx eps unit ds L u full Hu Hin Hann Hdis file_shows sel' datums Hs' t s).
  Qed.
  (* the cells of the labels that are left are the same with and without the labels *)
  Theorem file_same_cells t s datums sel' M M' : det_selects ds datums sel' ->
    det_cmx eps t s datums (det_load l1 l2 None) = Some M -> det_cmx eps t s datums (det_load l1 l2 (Some labels)) = Some M' ->
    forall g, label_left ds u g ->
    (forall p, label_left ds u p -> dcell_at M g p = dcell_at M' g p) /\ lget (dx_gts M) (Some g) = lget (dx_gts M') (Some g) /\ lget (dx_pds M) (Some g) = lget (dx_pds M') (Some g).
  Proof.
    intros Hs' HM HM' g Hg. assert (X := loaded_cmx eps unit ds L u full Hu Hin Hann Hdis file_shows sel' datums Hs' t s).
    change (MkDE (de_detailed full) (de_ranked full) (det_extract_labels (de_detailed full))) with (det_load l1 l2 None) in X. rewrite X in HM. injection HM as <-.
    rewrite (det_cmx_meaning eps unit ds L u full Hu Hin Hann Hdis file_shows sel' datums Hs' t s) in HM'. injection HM' as <-.
    assert (K : forall v, label_left ds u v -> In v (left_names full) /\ In v (names_of full)).
    { intros v Hv. assert (In v (left_names full)).
      { apply (left_In eps unit ds L u full Hin file_shows v). split; [exact Hv|]. apply left_is_label in Hv.
        apply (shows_labels eps unit ds L Hin u full v file_shows) in Hv. destruct Hv as (n & Hv). exists n.
        apply (g_labels _ _ _ _ _ _ (shows_good eps unit ds L u full Hin file_shows)). exact Hv. }
      split; [assumption|]. apply (left_in_names eps unit ds L u full Hin file_shows). assumption. }
    assert (G : forall V (F : String.string -> V) v, label_left ds u v -> lget (map (fun v => (Some v, F v)) (left_names full)) (Some v) = lget (map (fun v => (Some v, F v)) (names_of full)) (Some v)).
    { intros V F v Hv. destruct (K v Hv). rewrite !lget_map. do 2 (destruct (in_dec _ _ _); [|contradiction]). reflexivity. }
    split; [|split; [apply (G _ _ g Hg)|apply (G _ _ g Hg)]].
    intros p Hp. unfold dcell_at, dcmx_of. cbn [dx_cells]. destruct (K g Hg). rewrite !lget_map. do 2 (destruct (in_dec _ _ _); [|contradiction]). apply (G _ _ p Hp).
  Qed.
End File.
