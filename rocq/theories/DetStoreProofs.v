(* Well-formedness of the stored rows and counts of annotations in them. *)
From Verif Require Import Prelude Counting CacheModel CacheSpec ClsModel ClsSpec ClsLabelProofs DetModel DetSpec DetLoaderProofs.
From Coq Require Import Lia String.
Local Open Scope nat_scope.
Local Open Scope list_scope.

Lemma before_step (f : detection -> nat) ds i d : nth_error ds i = Some d ->
  list_sum_nat (map f (firstn (S i) ds)) = list_sum_nat (map f (firstn i ds)) + f d.
Proof.
  revert i. induction ds as [|x t IH]; intros [|i] H; try discriminate.
  - inversion H; subst. cbn. lia.
  - change (firstn (S (S i)) (x :: t)) with (x :: firstn (S i) t). change (firstn (S i) (x :: t)) with (x :: firstn i t).
    cbn [map]. specialize (IH i H). unfold list_sum_nat in *. cbn [fold_right]. lia.
Qed.

Lemma before_mono (f : detection -> nat) ds i j : i <= j ->
  list_sum_nat (map f (firstn i ds)) <= list_sum_nat (map f (firstn j ds)).
Proof.
  intros H. induction H as [|j H IH]; [lia|].
  destruct (nth_error ds j) as [d|] eqn:E.
  - rewrite (before_step f ds j d E). lia.
  - apply nth_error_None in E. rewrite (firstn_all2 (n:=S j) ds) by lia. rewrite (firstn_all2 (n:=j) ds) in IH by lia. exact IH.
Qed.

(* ids are unique over the data set *)
Lemma ids_unique (f : detection -> nat) ds i j d e x y :
  nth_error ds i = Some d -> nth_error ds j = Some e -> x < f d -> y < f e ->
  list_sum_nat (map f (firstn i ds)) + x = list_sum_nat (map f (firstn j ds)) + y -> i = j /\ x = y.
Proof.
  intros Hi Hj Hx Hy E. assert (Si := before_step f ds i d Hi). assert (Sj := before_step f ds j e Hj).
  destruct (lt_eq_lt_dec i j) as [[H|H]|H].
  - assert (M := before_mono f ds (S i) j H). lia.
  - subst. split; [reflexivity|]. lia.
  - assert (M := before_mono f ds (S j) i H). lia.
Qed.

Lemma gt_id_inj ds i j d e g h ga ha : nth_error ds i = Some d -> nth_error ds j = Some e ->
  nth_error (t_gts d) g = Some ga -> nth_error (t_gts e) h = Some ha -> gt_id ds i g = gt_id ds j h -> i = j /\ g = h.
Proof.
  intros Hi Hj Hg Hh E. unfold gt_id, gts_before in E. apply Nat2Z.inj in E.
  apply (ids_unique (fun d => List.length (t_gts d)) ds i j d e g h Hi Hj); [apply nth_error_Some; congruence|apply nth_error_Some; congruence|exact E].
Qed.
Lemma pd_id_inj ds i j d e g h ga ha : nth_error ds i = Some d -> nth_error ds j = Some e ->
  nth_error (t_pds d) g = Some ga -> nth_error (t_pds e) h = Some ha -> pd_id ds i g = pd_id ds j h -> i = j /\ g = h.
Proof.
  intros Hi Hj Hg Hh E. unfold pd_id, pds_before in E. apply Nat2Z.inj in E.
  apply (ids_unique (fun d => List.length (t_pds d)) ds i j d e g h Hi Hj); [apply nth_error_Some; congruence|apply nth_error_Some; congruence|exact E].
Qed.

(* views of described rows *)
Lemma described_gt eps ds L r : described eps ds L r -> (0 <= d_gt r)%Z ->
  exists i d g ga j gl gi, nth_error ds i = Some d /\ nth_error (t_gts d) g = Some ga /\
    nth_error (a_labels ga) j = Some gl /\ index_of gl L = Some gi /\
    d_datum r = Z.of_nat i /\ d_gt r = gt_id ds i g /\ d_gl r = Z.of_nat gi /\
    d_gt_label r = Some gl /\ d_gt_uid r = Some (a_uid ga).
Proof.
  intros H. destruct H as [i d g ga gl rest gi Hi Hg El Ha E|i d p pa k pl s pi Hi Hp Hk1 Hk2 Ha E
        |i d g ga j gl gi p pa k pl s pi Hi Hg Hp Hj Hk1 Hk2 Hiou E E']; cbn; intros H0.
  - exists i, d, g, ga, 0, gl, gi. rewrite El. repeat split; auto.
  - lia.
  - exists i, d, g, ga, j, gl, gi. repeat split; auto.
Qed.

Lemma described_pd eps ds L r : described eps ds L r -> (0 <= d_pd r)%Z ->
  exists i d p pa k pl s pi, nth_error ds i = Some d /\ nth_error (t_pds d) p = Some pa /\
    nth_error (a_labels pa) k = Some pl /\ nth_error (a_scores pa) k = Some s /\ index_of pl L = Some pi /\
    d_datum r = Z.of_nat i /\ d_pd r = pd_id ds i p /\ d_pl r = Z.of_nat pi /\ d_score r = s /\
    d_pd_label r = Some pl /\ d_pd_uid r = Some (a_uid pa).
Proof.
  intros H. destruct H as [i d g ga gl rest gi Hi Hg El Ha E|i d p pa k pl s pi Hi Hp Hk1 Hk2 Ha E
        |i d g ga j gl gi p pa k pl s pi Hi Hg Hp Hj Hk1 Hk2 Hiou E E']; cbn; intros H0.
  - lia.
  - exists i, d, p, pa, k, pl, s, pi. repeat split; auto.
  - exists i, d, p, pa, k, pl, s, pi. repeat split; auto.
Qed.

Lemma described_pair eps ds L r : described eps ds L r -> (0 <= d_gt r)%Z -> (0 <= d_pd r)%Z ->
  exists i d g ga p pa j gl gi k pl s pi, nth_error ds i = Some d /\ nth_error (t_gts d) g = Some ga /\ nth_error (t_pds d) p = Some pa /\
    nth_error (a_labels ga) j = Some gl /\ nth_error (a_labels pa) k = Some pl /\ nth_error (a_scores pa) k = Some s /\
    index_of gl L = Some gi /\ index_of pl L = Some pi /\ (eps <= t_iou d p g)%Z /\
    r = MkD (t_uid d) (Z.of_nat i) (Some (a_uid ga)) (gt_id ds i g) (Some gl) (Z.of_nat gi)
           (Some (a_uid pa)) (pd_id ds i p) (Some pl) (Z.of_nat pi) s (t_iou d p g) 0.
Proof.
  intros H. destruct H as [i d g ga gl rest gi Hi Hg El Ha E|i d p pa k pl s pi Hi Hp Hk1 Hk2 Ha E
        |i d g ga j gl gi p pa k pl s pi Hi Hg Hp Hj Hk1 Hk2 Hiou E E']; cbn; intros H0 H1; try lia.
  exists i, d, g, ga, p, pa, j, gl, gi, k, pl, s, pi. repeat split; auto.
Qed.

Section Stored.
  Variables (eps unit : Z) (ds : list detection) (L : list string) (tables : list (list drow)).
  Hypothesis Hu : (0 <= unit)%Z.
  Hypothesis Hin : det_input unit ds.
  Hypothesis Hst : det_stored eps ds L tables.

  Lemma stored_aligned : aligned d_datum tables.
  Proof. destruct Hst as (l & _ & _ & _ & H). exact H. Qed.

  Lemma inp d : In d ds -> det_ok d = true /\ plain_gts d /\ ious_in unit d.
  Proof. intros H. unfold det_input in Hin. rewrite Forall_forall in Hin. apply Hin; exact H. Qed.

  Lemma stored_loaded : exists l, loaded eps ds l /\ l_labels l = L /\ Permutation (List.concat tables) (List.concat (l_writes l)).
  Proof.
    destruct Hst as (l & E & EL & HP & _). exists l. split; [|auto].
    destruct (add_detections_loaded eps ds) as (l' & E' & H).
    { apply Forall_forall. intros d Hd. destruct (inp d Hd) as (H1 & H2 & _). apply det_ok_labels; assumption. }
    congruence.
  Qed.

  Lemma stored_NoDup : NoDup L.
  Proof. destruct stored_loaded as (l & H & <- & _). apply (ld_nodup _ _ _ H). Qed.

  Lemma stored_labels v : In v L <-> In v (det_labels ds).
  Proof.
    destruct stored_loaded as (l & H & <- & _). apply (loaded_labels_In eps ds l v H).
    intros d Hd. destruct (inp d Hd) as (H1 & H2 & _). auto.
  Qed.

  Lemma stored_rows r : In r (List.concat tables) <-> described eps ds L r.
  Proof.
    destruct stored_loaded as (l & H & <- & HP). rewrite <- (loaded_rows eps ds l r H).
    split; intros Hr; [apply (Permutation_in r HP Hr)|apply (Permutation_in r (Permutation_sym HP) Hr)].
  Qed.

  Lemma index_small v i : index_of v L = Some i -> i < List.length L.
  Proof. intros H. apply index_of_nth in H. apply nth_error_Some. congruence. Qed.

  Lemma stored_labels_small : few L -> labels_small (List.concat tables).
  Proof.
    intros Hf r Hr. apply stored_rows in Hr. unfold few in Hf. destruct Hr; cbn;
    repeat match goal with H : index_of _ L = Some _ |- _ => apply index_small in H end; lia.
  Qed.

  Lemma stored_ious_ok : ious_ok unit (List.concat tables).
  Proof.
    intros r Hr. apply stored_rows in Hr. destruct Hr; cbn; try lia.
    match goal with H : nth_error ds _ = Some d |- _ => apply nth_error_In in H; destruct (inp d H) as (_ & _ & Hi) end.
    apply Hi.
  Qed.

  Lemma stored_ious_nonneg r : In r (List.concat tables) -> (0 <= d_iou r)%Z.
  Proof.
    intros Hr. apply stored_rows in Hr. destruct Hr; cbn; try lia.
    match goal with H : nth_error ds _ = Some d |- _ => apply nth_error_In in H; destruct (inp d H) as (_ & _ & Hi) end.
    apply Hi.
  Qed.

  Lemma single_gt_label d ga : In d ds -> In ga (t_gts d) -> exists gl, a_labels ga = [gl].
  Proof.
    intros Hd Hb. destruct (inp d Hd) as (Hdo & Hpl & _).
    unfold det_ok in Hdo. rewrite !andb_true_iff in Hdo. destruct Hdo as [[Ho _] _].
    rewrite forallb_forall in Ho. specialize (Ho ga Hb). unfold ann_ok in Ho. rewrite (Hpl ga Hb) in Ho. simpl in Ho.
    rewrite andb_true_r in Ho. apply Nat.eqb_eq in Ho. destruct (a_labels ga) as [|gl [|? ?]]; try discriminate. eauto.
  Qed.

  Lemma stored_gts : forall a b, In a (List.concat tables) -> In b (List.concat tables) -> (0 <= d_gt a)%Z -> d_gt a = d_gt b ->
    d_datum a = d_datum b /\ d_gl a = d_gl b.
  Proof.
    intros a b Ha Hb H0 E. apply stored_rows in Ha. apply stored_rows in Hb.
    destruct (described_gt _ _ _ _ Ha H0) as (i & d & g & ga & j & gl & gi & Hi & Hg & Hj & Hx & E1 & E2 & E3 & _).
    assert (H1 : (0 <= d_gt b)%Z) by lia.
    destruct (described_gt _ _ _ _ Hb H1) as (i' & d' & g' & ga' & j' & gl' & gi' & Hi' & Hg' & Hj' & Hx' & E1' & E2' & E3' & _).
    destruct (gt_id_inj ds i i' d d' g g' ga ga' Hi Hi' Hg Hg') as [<- <-]; [congruence|].
    rewrite Hi in Hi'. inversion Hi'; subst d'. rewrite Hg in Hg'. inversion Hg'; subst ga'.
    destruct (single_gt_label d ga (nth_error_In _ _ Hi) (nth_error_In _ _ Hg)) as (x & Ex). rewrite Ex in *.
    destruct j as [|[|?]], j' as [|[|?]]; try discriminate. split; congruence.
  Qed.

  Lemma stored_gts_in_one : gts_in_one_datum (List.concat tables).
  Proof. intros a b Ha Hb H0 E. apply (stored_gts a b); assumption. Qed.

  Lemma stored_pds_in_one : pds_in_one_datum (List.concat tables).
  Proof.
    intros a b Ha Hb H0 E. apply stored_rows in Ha. apply stored_rows in Hb.
    destruct (described_pd _ _ _ _ Ha H0) as (i & d & p & pa & k & pl & s & pi & Hi & Hp & _ & _ & _ & E1 & E2 & _).
    assert (H1 : (0 <= d_pd b)%Z) by lia.
    destruct (described_pd _ _ _ _ Hb H1) as (i' & d' & p' & pa' & k' & pl' & s' & pi' & Hi' & Hp' & _ & _ & _ & E1' & E2' & _).
    destruct (pd_id_inj ds i i' d d' p p' pa pa' Hi Hi' Hp Hp') as [<- <-]; congruence.
  Qed.

  (* one row per prediction and label has one score *)
  Lemma stored_scores : Forall distinct_pd_labels ds ->
    forall a b, In a (List.concat tables) -> In b (List.concat tables) -> (0 <= d_pd a)%Z -> d_pd a = d_pd b -> d_pl a = d_pl b ->
    d_score a = d_score b.
  Proof.
    intros Hd a b Ha Hb H0 E El. apply stored_rows in Ha. apply stored_rows in Hb.
    destruct (described_pd _ _ _ _ Ha H0) as (i & d & p & pa & k & pl & s & pi & Hi & Hp & Hk & Hs & Hx & E1 & E2 & E3 & E4 & _).
    assert (H1 : (0 <= d_pd b)%Z) by lia.
    destruct (described_pd _ _ _ _ Hb H1) as (i' & d' & p' & pa' & k' & pl' & s' & pi' & Hi' & Hp' & Hk' & Hs' & Hx' & E1' & E2' & E3' & E4' & _).
    destruct (pd_id_inj ds i i' d d' p p' pa pa' Hi Hi' Hp Hp') as [<- <-]; [congruence|].
    rewrite Hi in Hi'. inversion Hi'; subst d'. rewrite Hp in Hp'. inversion Hp'; subst pa'.
    assert (pi = pi') by lia. subst pi'. assert (pl = pl') by (eapply index_of_inj; eauto). subst pl'.
    rewrite Forall_forall in Hd. specialize (Hd d (nth_error_In _ _ Hi) pa (nth_error_In _ _ Hp)).
    assert (k = k').
    { rewrite NoDup_nth_error in Hd. apply Hd; [apply nth_error_Some; congruence|congruence]. }
    subst k'. congruence.
  Qed.

  (* one IoU per pair *)
  Lemma stored_pair_iou : forall a b, In a (List.concat tables) -> In b (List.concat tables) ->
    (0 <= d_gt a)%Z -> (0 <= d_pd a)%Z -> d_gt a = d_gt b -> d_pd a = d_pd b -> d_iou a = d_iou b.
  Proof.
    intros a b Ha Hb H0 H1 Eg Ep. apply stored_rows in Ha. apply stored_rows in Hb.
    destruct (described_pair _ _ _ _ Ha H0 H1) as (i & d & g & ga & p & pa & j & gl & gi & k & pl & s & pi & Hi & Hg & Hp & _ & _ & _ & _ & _ & _ & ->).
    cbn in *. assert (H2 : (0 <= d_gt b)%Z) by lia. assert (H3 : (0 <= d_pd b)%Z) by lia.
    destruct (described_pair _ _ _ _ Hb H2 H3) as (i' & d' & g' & ga' & p' & pa' & j' & gl' & gi' & k' & pl' & s' & pi' & Hi' & Hg' & Hp' & _ & _ & _ & _ & _ & _ & ->).
    cbn in *. destruct (gt_id_inj ds i i' d d' g g' ga ga' Hi Hi' Hg Hg' Eg) as [<- <-].
    destruct (pd_id_inj ds i i d d' p p' pa pa' Hi Hi' Hp Hp' Ep) as [_ <-]. congruence.
  Qed.

  (* every label of a paired prediction is paired *)
  Lemma stored_closure : forall a b, In a (List.concat tables) -> In b (List.concat tables) ->
    (0 <= d_gt a)%Z -> (0 <= d_pd a)%Z -> d_pd a = d_pd b ->
    exists c, In c (List.concat tables) /\ d_datum c = d_datum b /\ d_gt c = d_gt a /\ d_gl c = d_gl a /\ d_pd c = d_pd b /\ d_pl c = d_pl b
      /\ d_score c = d_score b /\ d_iou c = d_iou a.
  Proof.
    intros a b Ha Hb H0 H1 Ep. apply stored_rows in Ha. apply stored_rows in Hb.
    destruct (described_pair _ _ _ _ Ha H0 H1) as (i & d & g & ga & p & pa & j & gl & gi & k & pl & s & pi & Hi & Hg & Hp & Hj & Hk & Hs & Hgi & Hpi & Hiou & ->).
    cbn in *. assert (H3 : (0 <= d_pd b)%Z) by lia.
    destruct (described_pd _ _ _ _ Hb H3) as (i' & d' & p' & pa' & k' & pl' & s' & pi' & Hi' & Hp' & Hk' & Hs' & Hx' & E1' & E2' & E3' & E4' & _).
    destruct (pd_id_inj ds i i' d d' p p' pa pa' Hi Hi' Hp Hp') as [<- <-]; [congruence|].
    rewrite Hi in Hi'. inversion Hi'; subst d'. rewrite Hp in Hp'. inversion Hp'; subst pa'.
    eexists. split; [apply stored_rows; exact (Desc_pair eps ds L i d g ga j gl gi p pa k' pl' s' pi' Hi Hg Hp Hj Hk' Hs' Hiou Hgi Hx')|].
    cbn. repeat split; congruence.
  Qed.

  Lemma stored_ids : few_annotations ds -> forall r, In r (List.concat tables) ->
    id_ok (d_datum r) /\ id_or_absent (d_gt r) /\ id_or_absent (d_pd r).
  Proof.
    intros (F1 & F2 & F3) r Hr. apply stored_rows in Hr.
    assert (G : forall i d g ga, nth_error ds i = Some d -> nth_error (t_gts d) g = Some ga -> id_ok (gt_id ds i g)).
    { intros i d g ga Hi Hg. unfold id_ok, gt_id, gts_before. split; [lia|]. eapply Z.le_lt_trans; [|exact F2].
      unfold gts_before. assert (B := before_step (fun d => List.length (t_gts d)) ds i d Hi).
      assert (i < List.length ds) by (apply nth_error_Some; congruence).
      assert (M := before_mono (fun d => List.length (t_gts d)) ds (S i) (List.length ds) H).
      assert (g < List.length (t_gts d)) by (apply nth_error_Some; congruence). cbn beta in *. lia. }
    assert (P : forall i d g ga, nth_error ds i = Some d -> nth_error (t_pds d) g = Some ga -> id_ok (pd_id ds i g)).
    { intros i d g ga Hi Hg. unfold id_ok, pd_id, pds_before. split; [lia|]. eapply Z.le_lt_trans; [|exact F3].
      unfold pds_before. assert (B := before_step (fun d => List.length (t_pds d)) ds i d Hi).
      assert (i < List.length ds) by (apply nth_error_Some; congruence).
      assert (M := before_mono (fun d => List.length (t_pds d)) ds (S i) (List.length ds) H).
      assert (g < List.length (t_pds d)) by (apply nth_error_Some; congruence). cbn beta in *. lia. }
    assert (D : forall i d, nth_error ds i = Some d -> id_ok (Z.of_nat i)).
    { intros i d Hi. assert (i < List.length ds) by (apply nth_error_Some; congruence). unfold id_ok. lia. }
    unfold id_or_absent, id_ok in *.
    destruct Hr; cbn; repeat match goal with
      | H : nth_error ds ?i = Some ?d |- _ => pose proof (D i d H); 
        repeat match goal with
        | H' : nth_error (t_gts d) ?g = Some ?ga |- _ => pose proof (G i d g ga H H'); clear H'
        | H' : nth_error (t_pds d) ?g = Some ?ga |- _ => pose proof (P i d g ga H H'); clear H'
        end; clear H
      end; lia.
  Qed.

  (* ---------------------------------------------------------------- *)
  (** ** Annotation counts *)

  Lemma NoDup_concat_disj {A} (ls : list (list A)) :
    (forall l, In l ls -> NoDup l) ->
    (forall i j li lj a, nth_error ls i = Some li -> nth_error ls j = Some lj -> i <> j -> In a li -> In a lj -> False) ->
    NoDup (List.concat ls).
  Proof.
    induction ls as [|l t IH]; intros H1 H2; [constructor|].
    cbn [List.concat]. apply NoDup_app_disjoint.
    - apply H1; left; reflexivity.
    - apply IH; [intros l' Hl'; apply H1; right; exact Hl'|]. intros i j li lj a Hi Hj Hij. apply (H2 (S i) (S j) li lj a); auto.
    - intros x Hx Hx'. apply in_concat in Hx'. destruct Hx' as (l' & Hl' & Hx'). apply In_nth_error in Hl'. destruct Hl' as (j & Hj).
      apply (H2 0 (S j) l l' x); auto.
  Qed.

  Lemma length_concat_map {A B} (f : A -> list B) l : List.length (List.concat (map f l)) = list_sum_nat (map (fun x => List.length (f x)) l).
  Proof. rewrite length_concat, map_map. reflexivity. Qed.

  Lemma enum_nth {A} (l : list A) k : nth_error (enum l) k = option_map (fun x => (k, x)) (nth_error l k).
  Proof.
    unfold enum. assert (G : forall b, nth_error (combine (seq b (List.length l)) l) k = option_map (fun x => (b + k, x)) (nth_error l k)).
    { revert k. induction l as [|a t IH]; intros k b; [destruct k; reflexivity|]. destruct k as [|k]; cbn.
      - rewrite Nat.add_0_r. reflexivity.
      - rewrite IH. replace (S b + k) with (b + S k) by lia. reflexivity. }
    apply G.
  Qed.

  Lemma enum_sum {A} (f : A -> nat) l : list_sum_nat (map (fun ia => f (snd ia)) (enum l)) = list_sum_nat (map f l).
  Proof.
    unfold enum. generalize 0. induction l as [|a t IH]; intros b; [reflexivity|].
    cbn. f_equal. apply IH.
  Qed.

    (* a prediction with its label is in some row *)
    Lemma pd_recorded i d p pa k pl s : nth_error ds i = Some d -> nth_error (t_pds d) p = Some pa ->
      nth_error (a_labels pa) k = Some pl -> nth_error (a_scores pa) k = Some s ->
      exists r pi, In r (List.concat tables) /\ index_of pl L = Some pi /\ d_datum r = Z.of_nat i /\ d_pd r = pd_id ds i p
        /\ d_pl r = Z.of_nat pi /\ d_score r = s.
    Proof.
      intros Hi Hp Hk Hs.
      assert (Hpl : exists pi, index_of pl L = Some pi).
      { destruct (index_of pl L) as [pi|] eqn:E; [eauto|]. apply index_of_None in E. exfalso. apply E. apply stored_labels.
        unfold det_labels. apply in_concat. exists (List.concat (map a_labels (t_gts d ++ t_pds d))).
        split; [apply in_map_iff; exists d; split; [reflexivity|apply (nth_error_In _ _ Hi)]|].
        apply in_concat. exists (a_labels pa). split; [|apply (nth_error_In _ _ Hk)]. apply in_map. apply in_app_iff. right. apply (nth_error_In _ _ Hp). }
      destruct Hpl as (pi & Hpi).
      destruct (existsb (fun g => (eps <=? t_iou d p g)%Z) (seq 0 (List.length (t_gts d)))) eqn:Ex.
      - apply existsb_exists in Ex. destruct Ex as (g & Hg & Hgi). apply in_seq in Hg.
        destruct (nth_error (t_gts d) g) as [ga|] eqn:Eg; [|apply nth_error_None in Eg; lia].
        destruct (single_gt_label d ga (nth_error_In _ _ Hi) (nth_error_In _ _ Eg)) as (gl & El).
        assert (exists gi, index_of gl L = Some gi) as (gi & Hgi').
        { destruct (index_of gl L) as [gi|] eqn:E; [eauto|]. apply index_of_None in E. exfalso. apply E. apply stored_labels.
          unfold det_labels. apply in_concat. exists (List.concat (map a_labels (t_gts d ++ t_pds d))).
          split; [apply in_map_iff; exists d; split; [reflexivity|apply (nth_error_In _ _ Hi)]|].
          apply in_concat. exists (a_labels ga). split; [|rewrite El; left; reflexivity]. apply in_map. apply in_app_iff. left. apply (nth_error_In _ _ Eg). }
        assert (Hgl : nth_error (a_labels ga) 0 = Some gl) by (rewrite El; reflexivity).
        assert (Hiou : (eps <= t_iou d p g)%Z) by lia.
        eexists. exists pi. split; [apply stored_rows; exact (Desc_pair eps ds L i d g ga 0 gl gi p pa k pl s pi Hi Eg Hp Hgl Hk Hs Hiou Hgi' Hpi)|].
        cbn. auto.
      - eexists. exists pi. split; [apply stored_rows; refine (Desc_pd eps ds L i d p pa k pl s pi Hi Hp Hk Hs _ Hpi)|].
        + intros g Hg. destruct (Z.lt_ge_cases (t_iou d p g) eps) as [H|H]; [exact H|]. exfalso.
          assert (existsb (fun g => (eps <=? t_iou d p g)%Z) (seq 0 (List.length (t_gts d))) = true); [|congruence].
          apply existsb_exists. exists g. split; [apply in_seq; lia|lia].
        + cbn. auto.
    Qed.

    Lemma gt_recorded i d g ga gl : nth_error ds i = Some d -> nth_error (t_gts d) g = Some ga -> a_labels ga = [gl] ->
      exists r gi, In r (List.concat tables) /\ index_of gl L = Some gi /\ d_datum r = Z.of_nat i /\ d_gt r = gt_id ds i g /\ d_gl r = Z.of_nat gi.
    Proof.
      intros Hi Eg El.
      assert (exists gi, index_of gl L = Some gi) as (gi & Hgi').
      { destruct (index_of gl L) as [gi|] eqn:E; [eauto|]. apply index_of_None in E. exfalso. apply E. apply stored_labels.
        unfold det_labels. apply in_concat. exists (List.concat (map a_labels (t_gts d ++ t_pds d))).
        split; [apply in_map_iff; exists d; split; [reflexivity|apply (nth_error_In _ _ Hi)]|].
        apply in_concat. exists (a_labels ga). split; [|rewrite El; left; reflexivity]. apply in_map. apply in_app_iff. left. apply (nth_error_In _ _ Eg). }
      (* a prediction without labels cannot exist *)
      destruct (existsb (fun p => (eps <=? t_iou d p g)%Z) (seq 0 (List.length (t_pds d)))) eqn:Ex.
      - apply existsb_exists in Ex. destruct Ex as (p & Hp & Hpi). apply in_seq in Hp.
        destruct (nth_error (t_pds d) p) as [pa|] eqn:Ep; [|apply nth_error_None in Ep; lia].
        assert (Hne : exists pl s, nth_error (a_labels pa) 0 = Some pl /\ nth_error (a_scores pa) 0 = Some s).
        { destruct (inp d (nth_error_In _ _ Hi)) as (Hdo & _ & _). unfold det_ok in Hdo. rewrite !andb_true_iff in Hdo.
          destruct Hdo as [[_ Ho] Ho']. rewrite forallb_forall in Ho, Ho'.
          specialize (Ho pa (nth_error_In _ _ Ep)). specialize (Ho' pa (nth_error_In _ _ Ep)). unfold ann_ok in Ho.
          apply Nat.eqb_eq in Ho'. destruct (a_labels pa) as [|pl ?], (a_scores pa) as [|s ?]; simpl in *; try discriminate. eauto. }
        destruct Hne as (pl & s & Hpl & Hs).
        assert (exists pi, index_of pl L = Some pi) as (pi & Hpi').
        { destruct (index_of pl L) as [pi|] eqn:E; [eauto|]. apply index_of_None in E. exfalso. apply E. apply stored_labels.
          unfold det_labels. apply in_concat. exists (List.concat (map a_labels (t_gts d ++ t_pds d))).
          split; [apply in_map_iff; exists d; split; [reflexivity|apply (nth_error_In _ _ Hi)]|].
          apply in_concat. exists (a_labels pa). split; [|apply (nth_error_In _ _ Hpl)]. apply in_map. apply in_app_iff. right. apply (nth_error_In _ _ Ep). }
        assert (Hgl : nth_error (a_labels ga) 0 = Some gl) by (rewrite El; reflexivity).
        assert (Hiou : (eps <= t_iou d p g)%Z) by lia.
        eexists. exists gi. split; [apply stored_rows; exact (Desc_pair eps ds L i d g ga 0 gl gi p pa 0 pl s pi Hi Eg Ep Hgl Hpl Hs Hiou Hgi' Hpi')|].
        cbn. auto.
      - eexists. exists gi. split; [apply stored_rows; refine (Desc_gt eps ds L i d g ga gl [] gi Hi Eg El _ Hgi')|].
        + intros p Hp. destruct (Z.lt_ge_cases (t_iou d p g) eps) as [H|H]; [exact H|]. exfalso.
          assert (existsb (fun p => (eps <=? t_iou d p g)%Z) (seq 0 (List.length (t_pds d))) = true); [|congruence].
          apply existsb_exists. exists p. split; [apply in_seq; lia|lia].
        + cbn. auto.
    Qed.

  Section PdCount.
    Variables (sel : detection -> bool) (ok : Z -> bool) (datums : drow -> bool) (v : string) (vi : nat).
    Hypothesis Hsel : selects_ids ds datums sel.
    Hypothesis Hv : index_of v L = Some vi.
    Hypothesis Hdis : Forall distinct_pd_labels ds.

    Definition pd_keys_of (i : nat) (p : nat) (a : annotation) : list (Z * Z * Z) :=
      map (fun _ => (Z.of_nat i, pd_id ds i p, Z.of_nat vi))
          (filter (fun ls => String.eqb v (fst ls) && ok (snd ls)) (combine (a_labels a) (a_scores a))).
    Definition expected_pds : list (Z * Z * Z) :=
      List.concat (map (fun id => if sel (snd id) then
         List.concat (map (fun pa => pd_keys_of (fst id) (fst pa) (snd pa)) (enum (t_pds (snd id)))) else []) (enum ds)).

    Lemma expected_pds_length : List.length expected_pds = pds_with sel ok ds v.
    Proof.
      unfold expected_pds, pds_with. rewrite length_concat_map.
      rewrite <- (enum_sum (fun d => if sel d then list_sum_nat (map (fun a => countb (fun ls => String.eqb v (fst ls) && ok (snd ls)) (combine (a_labels a) (a_scores a))) (t_pds d)) else 0) ds).
      apply list_sum_nat_ext. intros [i d] _. cbn [fst snd]. destruct (sel d); [|reflexivity].
      rewrite length_concat_map. rewrite <- (enum_sum (fun a => countb _ _) (t_pds d)).
      apply list_sum_nat_ext. intros [p a] _. cbn [fst snd]. unfold pd_keys_of. rewrite map_length. reflexivity.
    Qed.

    Lemma combine_NoDup_filter (a : annotation) : NoDup (a_labels a) ->
      List.length (filter (fun ls => String.eqb v (fst ls) && ok (snd ls)) (combine (a_labels a) (a_scores a))) <= 1.
    Proof.
      intros H. revert H. generalize (a_scores a). induction (a_labels a) as [|x t IH]; intros ss H; [destruct ss; simpl; lia|].
      destruct ss as [|s ss]; [simpl; lia|]. inversion H; subst. cbn [combine filter fst snd].
      destruct (String.eqb_spec v x) as [->|N]; cbn [andb]; [|apply IH; assumption].
      assert (E : filter (fun ls => String.eqb x (fst ls) && ok (snd ls)) (combine t ss) = []).
      { apply filter_none. intros [y s'] Hy. apply in_combine_l in Hy. cbn [fst snd].
        destruct (String.eqb_spec x y); [subst; contradiction|reflexivity]. }
      rewrite E. destruct (ok s); simpl; lia.
    Qed.

    Lemma expected_pds_NoDup : NoDup expected_pds.
    Proof.
      unfold expected_pds. apply NoDup_concat_disj.
      - intros l Hl. apply in_map_iff in Hl. destruct Hl as ([i d] & <- & Hid). apply enum_In in Hid. cbn [fst snd].
        destruct (sel d); [|constructor]. apply NoDup_concat_disj.
        + intros l Hl. apply in_map_iff in Hl. destruct Hl as ([p a] & <- & Hpa). apply enum_In in Hpa. cbn [fst snd].
          unfold pd_keys_of. rewrite Forall_forall in Hdis.
          assert (Hc := combine_NoDup_filter a (Hdis d (nth_error_In _ _ Hid) a (nth_error_In _ _ Hpa))).
          destruct (filter _ _) as [|x [|? ?]]; simpl in *; try lia; [constructor|]. constructor; [intros []|constructor].
        + intros p q lp lq k Hp Hq Hpq Hkp Hkq. rewrite nth_error_map, enum_nth in Hp, Hq.
          destruct (nth_error (t_pds d) p) as [a|] eqn:Ep; [|discriminate]. destruct (nth_error (t_pds d) q) as [b|] eqn:Eq; [|discriminate].
          cbn in Hp, Hq. inversion Hp; subst lp. inversion Hq; subst lq. unfold pd_keys_of in *.
          apply in_map_iff in Hkp. destruct Hkp as (_ & <- & _). apply in_map_iff in Hkq. destruct Hkq as (_ & E & _).
          inversion E as [E']. destruct (pd_id_inj ds i i d d q p b a Hid Hid Eq Ep E'). congruence.
      - intros i j li lj k Hi Hj Hij Hki Hkj. rewrite nth_error_map, enum_nth in Hi, Hj.
        destruct (nth_error ds i) as [d|] eqn:Ed; [|discriminate]. destruct (nth_error ds j) as [e|] eqn:Ee; [|discriminate].
        cbn in Hi, Hj. inversion Hi; subst li. inversion Hj; subst lj.
        destruct (sel d); [|destruct Hki]. destruct (sel e); [|destruct Hkj].
        apply in_concat in Hki. destruct Hki as (x & Hx & Hkx). apply in_map_iff in Hx. destruct Hx as ([p a] & <- & _).
        apply in_concat in Hkj. destruct Hkj as (y & Hy & Hky). apply in_map_iff in Hy. destruct Hy as ([q b] & <- & _).
        unfold pd_keys_of in *. cbn in *. apply in_map_iff in Hkx. destruct Hkx as (_ & <- & _).
        apply in_map_iff in Hky. destruct Hky as (_ & E & _). inversion E. lia.
    Qed.


    Lemma expected_pds_In k : In k expected_pds <->
      In k (dkeys zzz_dec pd_key (fun r => (0 <=? d_pd r)%Z && ok (d_score r) && (d_pl r =? Z.of_nat vi)%Z) (filter datums (List.concat tables))).
    Proof.
      rewrite dkeys_In. split.
      - unfold expected_pds. rewrite in_concat. intros (l & Hl & Hk). apply in_map_iff in Hl. destruct Hl as ([i d] & <- & Hid).
        apply enum_In in Hid. cbn [fst snd] in Hk. destruct (sel d) eqn:Es; [|destruct Hk]. apply in_concat in Hk.
        destruct Hk as (l & Hl & Hk). apply in_map_iff in Hl. destruct Hl as ([p a] & <- & Hpa). apply enum_In in Hpa.
        cbn [fst snd] in Hk. unfold pd_keys_of in Hk. apply in_map_iff in Hk. destruct Hk as ([l s] & <- & Hls).
        apply filter_In in Hls. destruct Hls as [Hls Hb]. cbn [fst snd] in Hb. apply andb_true_iff in Hb. destruct Hb as [Hb1 Hb2].
        apply String.eqb_eq in Hb1. subst l. apply combine_In_nth in Hls. destruct Hls as (k & Hk1 & Hk2).
        destruct (pd_recorded i d p a k v s Hid Hpa Hk1 Hk2) as (r & pi & Hr & Hpi & E1 & E2 & E3 & E4).
        assert (pi = vi) by congruence. subst pi.
        exists r. split; [apply filter_In; split; [exact Hr|rewrite <- Es; apply (Hsel r i d E1 Hid)]|].
        unfold pd_key. rewrite E1, E2, E3, E4. split; [|reflexivity]. rewrite Hb2, Z.eqb_refl.
        unfold pd_id. rewrite !andb_true_r. lia.
      - intros (r & Hr & Hb & <-). apply filter_In in Hr. destruct Hr as [Hr Hdt].
        rewrite !andb_true_iff in Hb. destruct Hb as [[Hb1 Hb2] Hb3]. apply Z.leb_le in Hb1. apply Z.eqb_eq in Hb3.
        apply stored_rows in Hr.
        destruct (described_pd _ _ _ _ Hr Hb1) as (i & d & p & pa & k & pl & s & pi & Hi & Hp & Hk & Hs & Hx & E1 & E2 & E3 & E4 & _).
        assert (pi = vi) by lia. subst pi. assert (pl = v) by (eapply index_of_inj; eauto). subst pl.
        unfold expected_pds. apply in_concat. eexists. split.
        { apply in_map_iff. exists (i, d). split; [reflexivity|]. apply enum_In. exact Hi. }
        cbn [fst snd]. rewrite <- (Hsel r i d E1 Hi), Hdt. apply in_concat. eexists. split.
        { apply in_map_iff. exists (p, pa). split; [reflexivity|]. apply enum_In. exact Hp. }
        cbn [fst snd]. unfold pd_keys_of. apply in_map_iff. exists (v, s). split; [unfold pd_key; congruence|].
        apply filter_In. split; [apply combine_In_nth; eauto|]. cbn [fst snd]. rewrite String.eqb_refl. rewrite <- E4. exact Hb2.
    Qed.

    Lemma stored_pd_count :
      dcount zzz_dec pd_key (fun r => (0 <=? d_pd r)%Z && ok (d_score r) && (d_pl r =? Z.of_nat vi)%Z) (filter datums (List.concat tables))
      = pds_with sel ok ds v.
    Proof.
      rewrite <- expected_pds_length. unfold dcount. apply Permutation_length. apply NoDup_Permutation.
      - apply dkeys_NoDup.
      - apply expected_pds_NoDup.
      - intros k. symmetry. apply expected_pds_In.
    Qed.
  End PdCount.

  Section GtCount.
    Variables (sel : detection -> bool) (datums : drow -> bool) (v : string) (vi : nat).
    Hypothesis Hsel : selects_ids ds datums sel.
    Hypothesis Hv : index_of v L = Some vi.

    Definition gt_keys_of (i : nat) (g : nat) (a : annotation) : list (Z * Z * Z) :=
      if existsb (String.eqb v) (a_labels a) then [(Z.of_nat i, gt_id ds i g, Z.of_nat vi)] else [].
    Definition expected_gts : list (Z * Z * Z) :=
      List.concat (map (fun id => if sel (snd id) then
         List.concat (map (fun ga => gt_keys_of (fst id) (fst ga) (snd ga)) (enum (t_gts (snd id)))) else []) (enum ds)).

    Lemma countb_as_sum {A} (f : A -> bool) l : countb f l = list_sum_nat (map (fun x => if f x then 1 else 0) l).
    Proof. unfold countb. induction l as [|a t IH]; simpl; [reflexivity|]. destruct (f a); simpl; unfold list_sum_nat in *; simpl; lia. Qed.

    Lemma expected_gts_length : List.length expected_gts = gts_with sel ds v.
    Proof.
      unfold expected_gts, gts_with. rewrite length_concat_map.
      rewrite <- (enum_sum (fun d => if sel d then countb (fun a => existsb (String.eqb v) (a_labels a)) (t_gts d) else 0) ds).
      apply list_sum_nat_ext. intros [i d] _. cbn [fst snd]. destruct (sel d); [|reflexivity].
      rewrite length_concat_map, countb_as_sum. rewrite <- (enum_sum (fun a => if existsb _ _ then 1 else 0) (t_gts d)).
      apply list_sum_nat_ext. intros [p a] _. cbn [fst snd]. unfold gt_keys_of. destruct (existsb _ _); reflexivity.
    Qed.

    Lemma expected_gts_NoDup : NoDup expected_gts.
    Proof.
      unfold expected_gts. apply NoDup_concat_disj.
      - intros l Hl. apply in_map_iff in Hl. destruct Hl as ([i d] & <- & Hid). apply enum_In in Hid. cbn [fst snd].
        destruct (sel d); [|constructor]. apply NoDup_concat_disj.
        + intros l Hl. apply in_map_iff in Hl. destruct Hl as ([p a] & <- & Hpa). cbn [fst snd].
          unfold gt_keys_of. destruct (existsb _ _); repeat constructor. intros [].
        + intros p q lp lq k Hp Hq Hpq Hkp Hkq. rewrite nth_error_map, enum_nth in Hp, Hq.
          destruct (nth_error (t_gts d) p) as [a|] eqn:Ep; [|discriminate]. destruct (nth_error (t_gts d) q) as [b|] eqn:Eq; [|discriminate].
          cbn in Hp, Hq. inversion Hp; subst lp. inversion Hq; subst lq. unfold gt_keys_of in *.
          destruct (existsb _ (a_labels a)); [|destruct Hkp]. destruct (existsb _ (a_labels b)); [|destruct Hkq].
          destruct Hkp as [<-|[]]. destruct Hkq as [E|[]].
          inversion E as [E']. destruct (gt_id_inj ds i i d d q p b a Hid Hid Eq Ep E'). congruence.
      - intros i j li lj k Hi Hj Hij Hki Hkj. rewrite nth_error_map, enum_nth in Hi, Hj.
        destruct (nth_error ds i) as [d|] eqn:Ed; [|discriminate]. destruct (nth_error ds j) as [e|] eqn:Ee; [|discriminate].
        cbn in Hi, Hj. inversion Hi; subst li. inversion Hj; subst lj.
        destruct (sel d); [|destruct Hki]. destruct (sel e); [|destruct Hkj].
        apply in_concat in Hki. destruct Hki as (x & Hx & Hkx). apply in_map_iff in Hx. destruct Hx as ([p a] & <- & _).
        apply in_concat in Hkj. destruct Hkj as (y & Hy & Hky). apply in_map_iff in Hy. destruct Hy as ([q b] & <- & _).
        unfold gt_keys_of in *. cbn in *. destruct (existsb _ (a_labels a)); [|destruct Hkx]. destruct (existsb _ (a_labels b)); [|destruct Hky].
        destruct Hkx as [<-|[]]. destruct Hky as [E|[]]. inversion E. lia.
    Qed.


    Lemma expected_gts_In k : In k expected_gts <->
      In k (dkeys zzz_dec gt_key (fun r => (0 <=? d_gt r)%Z && (d_gl r =? Z.of_nat vi)%Z) (filter datums (List.concat tables))).
    Proof.
      rewrite dkeys_In. split.
      - unfold expected_gts. rewrite in_concat. intros (l & Hl & Hk). apply in_map_iff in Hl. destruct Hl as ([i d] & <- & Hid).
        apply enum_In in Hid. cbn [fst snd] in Hk. destruct (sel d) eqn:Es; [|destruct Hk]. apply in_concat in Hk.
        destruct Hk as (l & Hl & Hk). apply in_map_iff in Hl. destruct Hl as ([g a] & <- & Hga). apply enum_In in Hga.
        cbn [fst snd] in Hk. unfold gt_keys_of in Hk. destruct (existsb (String.eqb v) (a_labels a)) eqn:Ex; [|destruct Hk].
        destruct Hk as [<-|[]]. destruct (single_gt_label d a (nth_error_In _ _ Hid) (nth_error_In _ _ Hga)) as (gl & El).
        rewrite El in Ex. simpl in Ex. rewrite orb_false_r in Ex. apply String.eqb_eq in Ex. subst gl.
        destruct (gt_recorded i d g a v Hid Hga El) as (r & gi & Hr & Hgi & E1 & E2 & E3).
        assert (gi = vi) by congruence. subst gi.
        exists r. split; [apply filter_In; split; [exact Hr|rewrite <- Es; apply (Hsel r i d E1 Hid)]|].
        unfold gt_key. rewrite E1, E2, E3. split; [|reflexivity]. rewrite Z.eqb_refl. unfold gt_id. rewrite !andb_true_r. lia.
      - intros (r & Hr & Hb & <-). apply filter_In in Hr. destruct Hr as [Hr Hdt].
        rewrite !andb_true_iff in Hb. destruct Hb as [Hb1 Hb3]. apply Z.leb_le in Hb1. apply Z.eqb_eq in Hb3.
        apply stored_rows in Hr.
        destruct (described_gt _ _ _ _ Hr Hb1) as (i & d & g & ga & j & gl & gi & Hi & Hg & Hj & Hx & E1 & E2 & E3 & _).
        assert (gi = vi) by lia. subst gi. assert (gl = v) by (eapply index_of_inj; eauto). subst gl.
        unfold expected_gts. apply in_concat. eexists. split.
        { apply in_map_iff. exists (i, d). split; [reflexivity|]. apply enum_In. exact Hi. }
        cbn [fst snd]. rewrite <- (Hsel r i d E1 Hi), Hdt. apply in_concat. eexists. split.
        { apply in_map_iff. exists (g, ga). split; [reflexivity|]. apply enum_In. exact Hg. }
        cbn [fst snd]. unfold gt_keys_of.
        assert (Ex : existsb (String.eqb v) (a_labels ga) = true).
        { apply existsb_exists. exists v. split; [apply (nth_error_In _ _ Hj)|apply String.eqb_refl]. }
        rewrite Ex. left. unfold gt_key. congruence.
    Qed.

    Lemma stored_gt_count :
      dcount zzz_dec gt_key (fun r => (0 <=? d_gt r)%Z && (d_gl r =? Z.of_nat vi)%Z) (filter datums (List.concat tables))
      = gts_with sel ds v.
    Proof.
      rewrite <- expected_gts_length. unfold dcount. apply Permutation_length. apply NoDup_Permutation.
      - apply dkeys_NoDup.
      - apply expected_gts_NoDup.
      - intros k. symmetry. apply expected_gts_In.
    Qed.
  End GtCount.
End Stored.
