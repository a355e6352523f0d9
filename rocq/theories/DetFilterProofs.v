(* Filtered object detection evaluators: which rows they hold. *)
From Verif Require Import Prelude Counting CacheModel CacheSpec CacheProofs CacheLemmas Pipeline SortProofs ClsModel ClsLabelProofs FlowModel FlowProofs
  DetModel DetExModel DetSpec DetRankProofs DetCountProofs DetLoaderProofs DetStoreProofs DetLocalProofs DetFlowModel DetFlowProofs
  DetOrderProofs DetReportModel DetEnd DetFilterModel DetFilterSpec SegFlowProofs DetTieOrder.
From Coq Require Import Lia.
From Coq Require String.
Local Open Scope nat_scope.
Local Open Scope list_scope.

Definition lacks_gt (r : drow) : Prop := d_gt r = (-1)%Z /\ d_gl r = (-1)%Z.
Definition lacks_pd (r : drow) : Prop := d_pd r = (-1)%Z /\ d_pl r = (-1)%Z /\ d_score r = (-1)%Z.

Section World.
  Variables (eps unit : Z) (ds : list detection) (L : list String.string).
  Local Notation cgt := (carries_gt ds L).
  Local Notation cpd := (carries_pd ds L).

  (* the rows show exactly the view [w] *)
  Record world (w : dview) (T : list drow) : Prop := {
    w_rows : forall r, In r T ->
      (exists i d g p v s, nth_error ds i = Some d /\ cgt i g r /\ cpd i p v s r /\ (eps <= t_iou d p g)%Z /\ d_iou r = t_iou d p g /\
         v_gt w d g = true /\ v_pd w d p v = true) \/
      (exists i d g, nth_error ds i = Some d /\ cgt i g r /\ lacks_pd r /\ d_iou r = 0%Z /\ v_gt w d g = true) \/
      (exists i d p v s, nth_error ds i = Some d /\ cpd i p v s r /\ lacks_gt r /\ d_iou r = 0%Z /\ v_pd w d p v = true);
    w_gt_in : forall i d g, nth_error ds i = Some d -> g < length (t_gts d) -> v_gt w d g = true -> exists r, In r T /\ cgt i g r;
    w_pd_in : forall i d p pa n v s, nth_error ds i = Some d -> nth_error (t_pds d) p = Some pa -> nth_error (a_labels pa) n = Some v ->
      nth_error (a_scores pa) n = Some s -> v_pd w d p v = true -> exists r, In r T /\ cpd i p v s r;
    w_pair_in : forall i d g p pa n v s, nth_error ds i = Some d -> g < length (t_gts d) -> nth_error (t_pds d) p = Some pa ->
      nth_error (a_labels pa) n = Some v -> nth_error (a_scores pa) n = Some s -> (eps <= t_iou d p g)%Z ->
      v_gt w d g = true -> v_pd w d p v = true -> exists r, In r T /\ cgt i g r /\ cpd i p v s r
  }.

  Lemma world_same w T T' : (forall r, In r T <-> In r T') -> world w T -> world w T'.
  Proof.
    intros E [H1 H2 H3 H4]. constructor.
    - intros r Hr. apply H1, E, Hr.
    - intros i d g Hi Hg Hv. destruct (H2 i d g Hi Hg Hv) as (r & Hr & Hc). exists r. split; [apply E|]; assumption.
    - intros i d p pa n v s A B C D Hv. destruct (H3 i d p pa n v s A B C D Hv) as (r & Hr & Hc). exists r. split; [apply E|]; assumption.
    - intros i d g p pa n v s A B C D F G K M. destruct (H4 i d g p pa n v s A B C D F G K M) as (r & Hr & Hc). exists r. split; [apply E|]; assumption.
  Qed.

  Lemma cgt_pos i g r : cgt i g r -> (0 <= d_gt r)%Z.
  Proof. intros (d & ga & v & gi & _ & _ & _ & _ & _ & _ & _ & E & _). rewrite E. unfold gt_id. lia. Qed.
  Lemma cpd_pos i p v s r : cpd i p v s r -> (0 <= d_pd r)%Z.
  Proof. intros (d & pa & n & pi & _ & _ & _ & _ & _ & _ & _ & _ & E & _). rewrite E. unfold pd_id. lia. Qed.
  Lemma cgt_same i g j h r r' : cgt i g r -> cgt j h r' -> d_gt r = d_gt r' -> i = j /\ g = h.
  Proof.
    intros (d & ga & v & gi & A1 & A2 & _ & _ & _ & _ & _ & E1 & _) (d' & ga' & v' & gi' & B1 & B2 & _ & _ & _ & _ & _ & E2 & _) E.
    apply (gt_id_inj ds i j d d' g h ga ga'); congruence.
  Qed.
  Lemma cpd_same i p j q v v' s s' r r' : cpd i p v s r -> cpd j q v' s' r' -> d_pd r = d_pd r' -> i = j /\ p = q.
  Proof.
    intros (d & pa & n & pi & A1 & A2 & _ & _ & _ & _ & _ & _ & E1 & _) (d' & pa' & n' & pi' & B1 & B2 & _ & _ & _ & _ & _ & _ & E2 & _) E.
    apply (pd_id_inj ds i j d d' p q pa pa'); congruence.
  Qed.
  Lemma cpd_label i p j q v v' s s' r r' : cpd i p v s r -> cpd j q v' s' r' -> d_pl r = d_pl r' -> v = v'.
  Proof.
    intros (d & pa & n & pi & _ & _ & _ & _ & A & _ & _ & _ & _ & _ & E1 & _) (d' & pa' & n' & pi' & _ & _ & _ & _ & B & _ & _ & _ & _ & _ & E2 & _) E.
    apply (index_of_inj v v' L pi); [exact A|]. replace pi with pi' by lia. exact B.
  Qed.
  Lemma cgt_datum i g r : cgt i g r -> d_datum r = Z.of_nat i.
  Proof. intros (d & ga & v & gi & _ & _ & _ & _ & _ & E & _). exact E. Qed.
  Lemma cpd_datum i p v s r : cpd i p v s r -> d_datum r = Z.of_nat i.
  Proof. intros (d & pa & n & pi & _ & _ & _ & _ & _ & _ & E & _). exact E. Qed.
  Lemma cgt_uid i g r d : cgt i g r -> nth_error ds i = Some d -> d_uid r = t_uid d.
  Proof. intros (d' & ga & v & gi & A & _ & _ & _ & E & _) H. congruence. Qed.
  Lemma cpd_uid i p v s r d : cpd i p v s r -> nth_error ds i = Some d -> d_uid r = t_uid d.
  Proof. intros (d' & ga & n & gi & A & _ & _ & _ & _ & E & _) H. congruence. Qed.

  (* ---------------------------------------------------------------- built *)
  Lemma stored_world tables : det_input unit ds -> det_stored eps ds L tables -> world full_view (concat tables).
  Proof.
    intros Hin Hst.
    assert (Hrows := stored_rows eps unit ds L tables Hin Hst).
    assert (Hone := single_gt_label unit ds Hin).
    assert (Hix : forall v, In v (det_labels ds) -> exists i, index_of v L = Some i).
    { intros v Hv. apply (stored_labels eps unit ds L tables Hin Hst) in Hv. destruct (index_of v L) as [i|] eqn:E; [eauto|].
      apply index_of_None in E. contradiction. }
    constructor.
    - intros r Hr. apply Hrows in Hr. inversion Hr as [i d g ga gl rest gi Hi Hg Hl Ha Hx|i d p pa k pl s pi Hi Hp Hk Hs Ha Hx|
        i d g ga j gl gi p pa k pl s pi Hi Hg Hp Hj Hk Hs Ho Hx Hy]; subst r.
      + right. left. exists i, d, g. destruct (Hone d ga (nth_error_In _ _ Hi) (nth_error_In _ _ Hg)) as (v & Hv).
        assert (gl = v /\ rest = []) as [-> ->] by (split; congruence).
        split; [exact Hi|]. split; [|repeat split; reflexivity]. exists d, ga, v, gi. cbn. auto 12.
      + right. right. exists i, d, p, pl, s. split; [exact Hi|]. split; [|repeat split; reflexivity]. exists d, pa, k, pi. cbn. auto 14.
      + left. exists i, d, g, p, pl, s. destruct (Hone d ga (nth_error_In _ _ Hi) (nth_error_In _ _ Hg)) as (v & Hv).
        assert (gl = v) as -> by (rewrite Hv in Hj; destruct j as [|[|j]]; cbn in Hj; congruence).
        split; [exact Hi|]. split; [exists d, ga, v, gi; cbn; auto 12|]. split; [exists d, pa, k, pi; cbn; auto 14|]. cbn. auto.
    - intros i d g Hi Hg _. destruct (nth_error (t_gts d) g) as [ga|] eqn:Eg; [|apply nth_error_None in Eg; lia].
      destruct (Hone d ga (nth_error_In _ _ Hi) (nth_error_In _ _ Eg)) as (v & Hv).
      destruct (gt_recorded eps unit ds L tables Hin Hst i d g ga v Hi Eg Hv) as (r & gi & Hr & Hx & E1 & E2 & E3).
      exists r. split; [exact Hr|]. apply Hrows in Hr. destruct (described_gt _ _ _ _ Hr) as (i' & d' & g' & ga' & j & gl & gi' & A1 & A2 & A3 & A4 & A5 & A6 & A7 & A8 & A9); [rewrite E2; unfold gt_id; lia|].
      assert (i' = i /\ g' = g) as [-> ->] by (apply (gt_id_inj ds i' i d' d g' g ga' ga); congruence).
      assert (d' = d) by congruence. subst d'. assert (ga' = ga) by congruence. subst ga'.
      assert (gl = v) by (rewrite Hv in A3; destruct j as [|[|j]]; cbn in A3; congruence). subst gl.
      exists d, ga, v, gi'. split; [exact Hi|]. split; [exact Eg|]. split; [exact Hv|]. split; [exact A4|].
      split; [|auto 10]. inversion Hr; subst r; cbn in *; try (unfold gt_id in *; lia); congruence || (replace i0 with i in * by lia; congruence).
    - intros i d p pa n v s Hi Hp Hn Hs _.
      destruct (pd_recorded eps unit ds L tables Hin Hst i d p pa n v s Hi Hp Hn Hs) as (r & pi & Hr & Hx & E1 & E2 & E3 & E4).
      exists r. split; [exact Hr|]. apply Hrows in Hr.
      destruct (described_pd _ _ _ _ Hr) as (i' & d' & p' & pa' & k & pl & s' & pi' & A1 & A2 & A3 & A4 & A5 & A6 & A7 & A8 & A9 & A10 & A11); [rewrite E2; unfold pd_id; lia|].
      assert (i' = i /\ p' = p) as [-> ->] by (apply (pd_id_inj ds i' i d' d p' p pa' pa); congruence).
      assert (d' = d) by congruence. subst d'. assert (pa' = pa) by congruence. subst pa'.
      assert (pl = v) by (apply (index_of_inj pl v L pi'); [exact A5|]; replace pi' with pi by lia; exact Hx). subst pl.
      exists d, pa, n, pi'. split; [exact Hi|]. split; [exact Hp|]. split; [exact Hn|]. split; [exact Hs|]. split; [exact A5|].
      split; [|auto 10]. inversion Hr; subst r; cbn in *; try (unfold pd_id in *; lia); congruence || (replace i0 with i in * by lia; congruence).
    - intros i d g p pa n v s Hi Hg Hp Hn Hs Ho _ _. destruct (nth_error (t_gts d) g) as [ga|] eqn:Eg; [|apply nth_error_None in Eg; lia].
      destruct (Hone d ga (nth_error_In _ _ Hi) (nth_error_In _ _ Eg)) as (gl & Hgl).
      assert (Hin_l : forall a, In a (t_gts d ++ t_pds d) -> forall x, In x (a_labels a) -> In x (det_labels ds)).
      { intros a Ha x Hx. unfold det_labels. apply in_concat. exists (concat (map a_labels (t_gts d ++ t_pds d))).
        split; [apply in_map_iff; exists d; split; [reflexivity|apply (nth_error_In _ _ Hi)]|]. apply in_concat. exists (a_labels a).
        split; [apply in_map; exact Ha|exact Hx]. }
      destruct (Hix gl) as (gi & Hgi). { apply (Hin_l ga); [apply in_app_iff; left; apply (nth_error_In _ _ Eg)|rewrite Hgl; left; reflexivity]. }
      destruct (Hix v) as (pi & Hpi). { apply (Hin_l pa); [apply in_app_iff; right; apply (nth_error_In _ _ Hp)|apply (nth_error_In _ _ Hn)]. }
      eexists. split; [apply Hrows; eapply (Desc_pair eps ds L i d g ga 0 gl gi p pa n v s pi); eauto; rewrite Hgl; reflexivity|].
      split; [exists d, ga, gl, gi; cbn; auto 12|exists d, pa, n, pi; cbn; auto 14].
  Qed.

  (* --------------------------------------------------------------- filter *)
  Section Filter.
    Variables (w : dview) (tables : list (list drow)).
    Hypothesis Hw : world w (concat tables).
    Hypothesis Hal : aligned d_datum tables.
    Variables (datums : drow -> bool) (gts pds : option (drow -> bool)).
    Variables (sel : detection -> bool) (sg : detection -> nat -> bool) (sp : detection -> nat -> String.string -> bool).
    Hypothesis Hsel : det_selects ds datums sel.
    Hypothesis Hsg : gt_filter ds L gts sg.
    Hypothesis Hsp : pd_filter ds L pds sp.

    Definition valid_gt (tb : list drow) (r : drow) : bool :=
      match gts with None => true | Some f => existsb (same_gtk r) (filter f tb) end.
    Definition valid_pd (tb : list drow) (r : drow) : bool :=
      match pds with None => true | Some f => existsb (same_pdk r) (filter f tb) end.

    Lemma filter_table_In tb r2 : In r2 (det_filter_table gts pds tb) <->
      exists r, In r tb /\ (valid_gt tb r || valid_pd tb r = true) /\ r2 = det_filter_row (valid_gt tb r) (valid_pd tb r) r /\
        ~ ((d_gt r2 < 0)%Z /\ (d_pd r2 < 0)%Z).
    Proof.
      unfold det_filter_table. fold (valid_gt tb) (valid_pd tb). rewrite filter_In, in_map_iff. split.
      - intros [(r & <- & Hr) Hn]. apply filter_In in Hr. destruct Hr as [Hr Hv]. exists r. split; [exact Hr|]. split; [exact Hv|]. split; [reflexivity|].
        apply negb_true_iff, andb_false_iff in Hn. lia.
      - intros (r & Hr & Hv & -> & Hn). split.
        + exists r. split; [reflexivity|]. apply filter_In. split; [exact Hr|exact Hv].
        + apply negb_true_iff, andb_false_iff. lia.
    Qed.
    Lemma filter_tables_In r2 : In r2 (concat (det_filter_tables datums gts pds tables)) <->
      exists tb, In tb tables /\ In r2 (det_filter_table gts pds (filter datums tb)).
    Proof.
      unfold det_filter_tables. rewrite in_concat. split.
      - intros (x & Hx & Hr). apply in_map_iff in Hx. destruct Hx as (tb & <- & Htb). exists tb. auto.
      - intros (tb & Htb & Hr). exists (det_filter_table gts pds (filter datums tb)). split; [|exact Hr]. apply in_map_iff. exists tb. auto.
    Qed.
    Lemma in_tables tb r : In tb tables -> In r tb -> In r (concat tables).
    Proof. intros H1 H2. apply in_concat. exists tb. auto. Qed.

    Lemma row_datum r : In r (concat tables) -> exists i d, nth_error ds i = Some d /\ d_datum r = Z.of_nat i /\ d_uid r = t_uid d.
    Proof.
      intros Hr. destruct (w_rows _ _ Hw r Hr) as [(i & d & g & p & v & s & Hi & Hg & _)|[(i & d & g & Hi & Hg & _)|(i & d & p & v & s & Hi & Hp & _)]];
        exists i, d; (split; [exact Hi|split]); eauto using cgt_datum, cpd_datum, cgt_uid, cpd_uid.
    Qed.
    Lemma row_sel r i d : In r (concat tables) -> nth_error ds i = Some d -> d_datum r = Z.of_nat i -> datums r = sel d.
    Proof.
      intros Hr Hi E. destruct (row_datum r Hr) as (i' & d' & Hi' & E' & U). assert (i' = i) by lia. subst i'. assert (d' = d) by congruence. subst d'.
      apply (Hsel r i d); assumption.
    Qed.
    Lemma row_gt r : In r (concat tables) -> (0 <= d_gt r)%Z -> exists i d g, nth_error ds i = Some d /\ cgt i g r /\ v_gt w d g = true.
    Proof.
      intros Hr H0. destruct (w_rows _ _ Hw r Hr) as [(i & d & g & p & v & s & Hi & Hg & _ & _ & _ & Hv & _)|[(i & d & g & Hi & Hg & _ & _ & Hv)|(i & d & p & v & s & _ & _ & [E _] & _)]]; [eauto 6|eauto 6|lia].
    Qed.
    Lemma row_pd r : In r (concat tables) -> (0 <= d_pd r)%Z -> exists i d p v s, nth_error ds i = Some d /\ cpd i p v s r /\ v_pd w d p v = true.
    Proof.
      intros Hr H0. destruct (w_rows _ _ Hw r Hr) as [(i & d & g & p & v & s & Hi & _ & Hp & _ & _ & _ & Hv)|[(i & d & g & _ & _ & [E _] & _)|(i & d & p & v & s & Hi & Hp & _ & _ & Hv)]]; [eauto 8|lia|eauto 8].
    Qed.

    Lemma valid_gt_spec tb r i d g : In tb tables -> In r (filter datums tb) -> cgt i g r -> nth_error ds i = Some d ->
      valid_gt (filter datums tb) r = sg d g.
    Proof.
      intros Htb Hr Hc Hi. assert (Hlen : g < length (t_gts d)).
      { destruct Hc as (d' & ga & v & gi & A1 & A2 & _). assert (d' = d) by congruence. subst d'. apply nth_error_Some. congruence. }
      assert (Hf := Hsg d i g Hi Hlen). unfold valid_gt. destruct gts as [f|]; [|congruence].
      destruct (sg d g) eqn:Es.
      - apply existsb_exists. exists r. split; [apply filter_In; split; [exact Hr|apply Hf; exact Hc]|]. unfold same_gtk. destruct (zzz_dec (gt_key r) (gt_key r)); congruence.
      - destruct (existsb (same_gtk r) (filter f (filter datums tb))) eqn:Ex; [|reflexivity]. exfalso.
        apply existsb_exists in Ex. destruct Ex as (r' & Hr' & Hk). apply filter_In in Hr'. destruct Hr' as [Hr' Hf'].
        unfold same_gtk in Hk. destruct (zzz_dec (gt_key r) (gt_key r')) as [E|]; [|discriminate]. unfold gt_key in E. injection E as E1 E2 E3.
        destruct (row_gt r') as (i' & d' & g' & Hi' & Hc' & _).
        { apply (in_tables tb); [exact Htb|]. apply filter_In in Hr'. tauto. }
        { rewrite <- E2. apply (cgt_pos i g r Hc). }
        destruct (cgt_same i g i' g' r r' Hc Hc' E2) as [<- <-]. rewrite (Hf r' Hc') in Hf'. discriminate.
    Qed.
    Lemma valid_pd_spec tb r i d p v s : In tb tables -> In r (filter datums tb) -> cpd i p v s r -> nth_error ds i = Some d ->
      valid_pd (filter datums tb) r = sp d p v.
    Proof.
      intros Htb Hr Hc Hi. assert (exists pa, nth_error (t_pds d) p = Some pa /\ In v (a_labels pa)) as (pa & Hp & Hv).
      { destruct Hc as (d' & pa & n & pi & A1 & A2 & A3 & _). assert (d' = d) by congruence. subst d'. exists pa. split; [exact A2|apply (nth_error_In _ _ A3)]. }
      assert (Hf := Hsp d i p pa v Hi Hp Hv). unfold valid_pd. destruct pds as [f|]; [|congruence].
      destruct (sp d p v) eqn:Es.
      - apply existsb_exists. exists r. split; [apply filter_In; split; [exact Hr|apply (Hf r s); exact Hc]|]. unfold same_pdk. destruct (zzz_dec (pd_key r) (pd_key r)); congruence.
      - destruct (existsb (same_pdk r) (filter f (filter datums tb))) eqn:Ex; [|reflexivity]. exfalso.
        apply existsb_exists in Ex. destruct Ex as (r' & Hr' & Hk). apply filter_In in Hr'. destruct Hr' as [Hr' Hf'].
        unfold same_pdk in Hk. destruct (zzz_dec (pd_key r) (pd_key r')) as [E|]; [|discriminate]. unfold pd_key in E. injection E as E1 E2 E3.
        destruct (row_pd r') as (i' & d' & p' & v' & s' & Hi' & Hc' & _).
        { apply (in_tables tb); [exact Htb|]. apply filter_In in Hr'. tauto. }
        { rewrite <- E2. apply (cpd_pos i p v s r Hc). }
        destruct (cpd_same i p i' p' v v' s s' r r' Hc Hc' E2) as [<- <-]. assert (v' = v) as -> by (symmetry; apply (cpd_label i p i p v v' s s' r r' Hc Hc' E3)).
        rewrite (Hf r' s' Hc') in Hf'. discriminate.
    Qed.

    Lemma cgt_row b i g r : cgt i g r -> cgt i g (det_filter_row true b r).
    Proof. intros (d & ga & v & gi & H). exists d, ga, v, gi. exact H. Qed.
    Lemma cpd_row b i p v s r : cpd i p v s r -> cpd i p v s (det_filter_row b true r).
    Proof. intros (d & pa & n & pi & H). exists d, pa, n, pi. exact H. Qed.

    (* a row of the input and what becomes of it *)
    Lemma kept_gt_row r i d g : In r (concat tables) -> nth_error ds i = Some d -> cgt i g r -> sel d = true -> sg d g = true ->
      exists b, In (det_filter_row true b r) (concat (det_filter_tables datums gts pds tables)).
    Proof.
      intros Hr Hi Hc Hs Hg. assert (Hd : datums r = true) by (rewrite (row_sel r i d Hr Hi (cgt_datum i g r Hc)); exact Hs).
      apply in_concat in Hr. destruct Hr as (tb & Htb & Hr). assert (Hr' : In r (filter datums tb)) by (apply filter_In; auto).
      assert (Hv := valid_gt_spec tb r i d g Htb Hr' Hc Hi). rewrite Hg in Hv. exists (valid_pd (filter datums tb) r).
      apply filter_tables_In. exists tb. split; [exact Htb|]. apply filter_table_In. exists r. split; [exact Hr'|]. rewrite Hv.
      split; [reflexivity|]. split; [reflexivity|]. cbn. assert (X := cgt_pos i g r Hc). lia.
    Qed.
    Lemma kept_pd_row r i d p v s : In r (concat tables) -> nth_error ds i = Some d -> cpd i p v s r -> sel d = true -> sp d p v = true ->
      exists b, In (det_filter_row b true r) (concat (det_filter_tables datums gts pds tables)).
    Proof.
      intros Hr Hi Hc Hs Hg. assert (Hd : datums r = true) by (rewrite (row_sel r i d Hr Hi (cpd_datum i p v s r Hc)); exact Hs).
      apply in_concat in Hr. destruct Hr as (tb & Htb & Hr). assert (Hr' : In r (filter datums tb)) by (apply filter_In; auto).
      assert (Hv := valid_pd_spec tb r i d p v s Htb Hr' Hc Hi). rewrite Hg in Hv. exists (valid_gt (filter datums tb) r).
      apply filter_tables_In. exists tb. split; [exact Htb|]. apply filter_table_In. exists r. split; [exact Hr'|]. rewrite Hv.
      split; [apply orb_true_r|]. split; [reflexivity|]. cbn. assert (X := cpd_pos i p v s r Hc). lia.
    Qed.
    Lemma kept_pair_row r i d g p v s : In r (concat tables) -> nth_error ds i = Some d -> cgt i g r -> cpd i p v s r -> sel d = true ->
      sg d g = true -> sp d p v = true -> In (det_filter_row true true r) (concat (det_filter_tables datums gts pds tables)).
    Proof.
      intros Hr Hi Hc Hcp Hs Hg Hp. assert (Hd : datums r = true) by (rewrite (row_sel r i d Hr Hi (cgt_datum i g r Hc)); exact Hs).
      apply in_concat in Hr. destruct Hr as (tb & Htb & Hr). assert (Hr' : In r (filter datums tb)) by (apply filter_In; auto).
      assert (Hv := valid_gt_spec tb r i d g Htb Hr' Hc Hi). rewrite Hg in Hv.
      assert (Hv2 := valid_pd_spec tb r i d p v s Htb Hr' Hcp Hi). rewrite Hp in Hv2.
      apply filter_tables_In. exists tb. split; [exact Htb|]. apply filter_table_In. exists r. split; [exact Hr'|]. rewrite Hv, Hv2.
      split; [reflexivity|]. split; [reflexivity|]. cbn. assert (X := cgt_pos i g r Hc). lia.
    Qed.

    Theorem filter_world : world (restrict w sel sg sp) (concat (det_filter_tables datums gts pds tables)).
    Proof.
      constructor.
      - intros r2 Hr2. apply filter_tables_In in Hr2. destruct Hr2 as (tb & Htb & Hr2). apply filter_table_In in Hr2.
        destruct Hr2 as (r & Hr & Hv & E & Hn).
        assert (HrT : In r (concat tables)) by (apply (in_tables tb); [exact Htb|]; apply filter_In in Hr; tauto).
        assert (Hd : datums r = true) by (apply filter_In in Hr; tauto).
        destruct (w_rows _ _ Hw r HrT) as [(i & d & g & p & v & s & Hi & Hg & Hp & Ho & Eo & Vg & Vp)|[(i & d & g & Hi & Hg & Lp & Eo & Vg)|(i & d & p & v & s & Hi & Hp & Lg & Eo & Vp)]].
        + assert (Hs : sel d = true) by (rewrite <- (row_sel r i d HrT Hi (cgt_datum i g r Hg)); exact Hd).
          rewrite (valid_gt_spec tb r i d g Htb Hr Hg Hi) in *. rewrite (valid_pd_spec tb r i d p v s Htb Hr Hp Hi) in *.
          destruct (sg d g) eqn:Sg, (sp d p v) eqn:Sp; cbn in Hv; try discriminate; subst r2.
          * left. exists i, d, g, p, v, s. split; [exact Hi|]. split; [apply cgt_row; exact Hg|]. split; [apply cpd_row; exact Hp|].
            split; [exact Ho|]. split; [exact Eo|]. cbn. rewrite Hs, Sg, Sp, Vg, Vp. auto.
          * right. left. exists i, d, g. split; [exact Hi|]. split; [apply cgt_row; exact Hg|]. split; [repeat split|]. split; [reflexivity|].
            cbn. rewrite Hs, Sg, Vg. reflexivity.
          * right. right. exists i, d, p, v, s. split; [exact Hi|]. split; [apply cpd_row; exact Hp|]. split; [repeat split|]. split; [reflexivity|].
            cbn. rewrite Hs, Sp, Vp. reflexivity.
        + assert (Hs : sel d = true) by (rewrite <- (row_sel r i d HrT Hi (cgt_datum i g r Hg)); exact Hd).
          rewrite (valid_gt_spec tb r i d g Htb Hr Hg Hi) in *. destruct Lp as (L1 & L2 & L3).
          destruct (sg d g) eqn:Sg; subst r2.
          * right. left. exists i, d, g. split; [exact Hi|]. split; [apply cgt_row; exact Hg|].
            split; [unfold lacks_pd; cbn; destruct (valid_pd _ r); auto|]. split; [cbn; destruct (valid_pd _ r); auto|]. cbn. rewrite Hs, Sg, Vg. reflexivity.
          * exfalso. apply Hn. cbn. destruct (valid_pd _ r); lia.
        + assert (Hs : sel d = true) by (rewrite <- (row_sel r i d HrT Hi (cpd_datum i p v s r Hp)); exact Hd).
          rewrite (valid_pd_spec tb r i d p v s Htb Hr Hp Hi) in *. destruct Lg as (L1 & L2).
          destruct (sp d p v) eqn:Sp; subst r2.
          * right. right. exists i, d, p, v, s. split; [exact Hi|]. split; [apply cpd_row; exact Hp|].
            split; [unfold lacks_gt; cbn; destruct (valid_gt _ r); auto|]. split; [cbn; destruct (valid_gt _ r); auto|]. cbn. rewrite Hs, Sp, Vp. reflexivity.
          * exfalso. apply Hn. cbn. destruct (valid_gt _ r); lia.
      - intros i d g Hi Hg Hv. cbn in Hv. apply andb_true_iff in Hv. destruct Hv as [Hv Vg]. apply andb_true_iff in Hv. destruct Hv as [Hs Sg].
        destruct (w_gt_in _ _ Hw i d g Hi Hg Vg) as (r & Hr & Hc). destruct (kept_gt_row r i d g Hr Hi Hc Hs Sg) as (b & Hb).
        exists (det_filter_row true b r). split; [exact Hb|apply cgt_row; exact Hc].
      - intros i d p pa n v s Hi Hp Hn Hsc Hv. cbn in Hv. apply andb_true_iff in Hv. destruct Hv as [Hv Vp]. apply andb_true_iff in Hv. destruct Hv as [Hs Sp].
        destruct (w_pd_in _ _ Hw i d p pa n v s Hi Hp Hn Hsc Vp) as (r & Hr & Hc). destruct (kept_pd_row r i d p v s Hr Hi Hc Hs Sp) as (b & Hb).
        exists (det_filter_row b true r). split; [exact Hb|apply cpd_row; exact Hc].
      - intros i d g p pa n v s Hi Hg Hp Hn Hsc Ho Hv Hv'. cbn in Hv, Hv'.
        apply andb_true_iff in Hv. destruct Hv as [Hv Vg]. apply andb_true_iff in Hv. destruct Hv as [Hs Sg].
        apply andb_true_iff in Hv'. destruct Hv' as [Hv' Vp]. apply andb_true_iff in Hv'. destruct Hv' as [_ Sp].
        destruct (w_pair_in _ _ Hw i d g p pa n v s Hi Hg Hp Hn Hsc Ho Vg Vp) as (r & Hr & Hc & Hc').
        exists (det_filter_row true true r). split; [apply (kept_pair_row r i d g p v s); auto|]. split; [apply cgt_row; exact Hc|apply cpd_row; exact Hc'].
    Qed.

    Lemma filtered_datum k t r2 : nth_error (det_filter_tables datums gts pds tables) k = Some t -> In r2 t ->
      exists tb r, nth_error tables k = Some tb /\ In r tb /\ d_datum r2 = d_datum r.
    Proof.
      unfold det_filter_tables. rewrite nth_error_map. destruct (nth_error tables k) as [tb|] eqn:E; [|discriminate]. cbn. intros X. injection X as <-.
      intros H. apply filter_table_In in H. destruct H as (r & Hr & _ & -> & _). apply filter_In in Hr. exists tb, r. split; [reflexivity|]. split; [tauto|reflexivity].
    Qed.
    Lemma filter_aligned : aligned d_datum (det_filter_tables datums gts pds tables).
    Proof.
      intros i j ti tj a b Hi Hj Ha Hb E. destruct (filtered_datum i ti a Hi Ha) as (ti' & a' & Hi' & Ha' & Ea).
      destruct (filtered_datum j tj b Hj Hb) as (tj' & b' & Hj' & Hb' & Eb). apply (Hal i j ti' tj' a' b' Hi' Hj' Ha' Hb'). congruence.
    Qed.
    Lemma filter_order : by_datum_order tables -> by_datum_order (det_filter_tables datums gts pds tables).
    Proof.
      intros Hbd i j ti tj a b Hi Hj Hij Ha Hb. destruct (filtered_datum i ti a Hi Ha) as (ti' & a' & Hi' & Ha' & Ea).
      destruct (filtered_datum j tj b Hj Hb) as (tj' & b' & Hj' & Hb' & Eb). rewrite Ea, Eb. apply (Hbd i j ti' tj' a' b' Hi' Hj' Hij Ha' Hb').
    Qed.
  End Filter.
End World.

(* ------------------------------------------------------------------ *)
(** * The filtered caches *)


Lemma ordered_tables ts : by_datum_order ts <-> StronglySorted (fun t u => forall a b, In a t -> In b u -> (d_datum a < d_datum b)%Z) ts.
Proof.
  split.
  - induction ts as [|t ts IH]; intros H; constructor.
    + apply IH. intros i j ti tj a b Hi Hj Hij. apply (H (S i) (S j) ti tj a b Hi Hj). lia.
    + apply Forall_forall. intros u Hu a b Ha Hb. apply In_nth_error in Hu. destruct Hu as (j & Hj).
      apply (H 0 (S j) t u a b); [reflexivity|exact Hj|lia|exact Ha|exact Hb].
  - intros H. induction H as [|t ts Hs IH Hf]; intros i j ti tj a b Hi Hj Hij Ha Hb; [destruct i; discriminate|].
    destruct j as [|j]; [lia|]. cbn [nth_error] in Hj. destruct i as [|i].
    + injection Hi as ->. rewrite Forall_forall in Hf. apply (Hf tj (nth_error_In _ _ Hj) a b Ha Hb).
    + apply (IH i j ti tj a b Hi Hj); [lia|exact Ha|exact Hb].
Qed.
Lemma order_groups (gs : list (list (list drow))) : by_datum_order (concat gs) -> by_datum_order (map (@concat drow) gs).
Proof.
  intros H. apply ordered_tables in H. assert (X := concat_split_order _ gs H). intros i j ti tj a b Hi Hj Hij Ha Hb.
  rewrite nth_error_map in Hi, Hj. destruct (nth_error gs i) as [gi|] eqn:Ei; [|discriminate]. destruct (nth_error gs j) as [gj|] eqn:Ej; [|discriminate].
  injection Hi as <-. injection Hj as <-. apply in_concat in Ha. apply in_concat in Hb. destruct Ha as (ta & Hta & Ha). destruct Hb as (tb & Htb & Hb).
  apply (X i j gi gj ta tb Ei Ej Hij Hta Htb a b Ha Hb).
Qed.
Lemma order_sorted ts : by_datum_order ts -> by_datum_order (map dsort ts).
Proof.
  intros H i j ti tj a b Hi Hj Hij Ha Hb. rewrite nth_error_map in Hi, Hj.
  destruct (nth_error ts i) as [gi|] eqn:Ei; [|discriminate]. destruct (nth_error ts j) as [gj|] eqn:Ej; [|discriminate].
  injection Hi as <-. injection Hj as <-. apply (H i j gi gj a b Ei Ej Hij); apply in_dsort; assumption.
Qed.
Lemma order_single t : by_datum_order [t].
Proof. intros i j ti tj a b Hi Hj Hij. destruct i as [|i]; destruct j as [|j]; cbn in *; try lia; destruct j; discriminate. Qed.

Lemma file_pipe_ops {A} (f : list A -> list A) bs rpf (ops : list (wop A)) :
  exists gs, concat gs = batches ops /\
    file_tables (f_dir (file_flush (file_run bs rpf ops))) = map (@concat A) gs /\
    forall listing, Permutation listing (f_dir (file_sort_by f (file_flush (file_run bs rpf ops)))) ->
      file_tables listing = map f (map (@concat A) gs).
Proof.
  destruct (ghost_final bs rpf ops) as (gs & (Hs & Hm & _) & Hc). exists gs. split; [exact Hc|].
  set (s := file_flush (file_run bs rpf ops)) in *. split.
  { rewrite (file_tables_listing _ _ Hs (Permutation_refl _)), <- Hm. reflexivity. }
  intros listing Hp.
  assert (E : f_dir (file_sort_by f s) = map (fun e => (fst e, f (snd e))) (f_dir s)).
  { unfold file_sort_by. cbn [f_dir]. unfold s. rewrite file_flush_twice. reflexivity. }
  rewrite E in Hp.
  assert (Hs2 : StronglySorted idx_lt (map (fun e => (fst e, f (snd e))) (f_dir s))).
  { clear -Hs. induction Hs as [|e d Hs IH Hf]; cbn; constructor; auto. rewrite Forall_map. exact Hf. }
  rewrite (file_tables_listing _ _ Hs2 Hp). rewrite map_map. cbn [snd]. rewrite <- Hm, map_map. reflexivity.
Qed.

Lemma det_filter_mem_spec unit bs rb e datums gts pds :
  let ts := det_filter_tables datums gts pds (de_detailed e) in
  match concat ts with
  | [] => det_filter_mem unit bs rb e datums gts pds = EmptyCache
  | _ :: _ => exists e', det_filter_mem unit bs rb e datums gts pds = Done e' /\
      de_detailed e' = [dsort (concat ts)] /\ de_labels e' = de_labels e /\ ranked_of unit (de_detailed e') (concat (de_ranked e'))
  end.
Proof.
  cbv zeta. unfold det_filter_mem. set (ts := det_filter_tables datums gts pds (de_detailed e)).
  unfold dmb_finalize_as. cbn [dmb_detailed dmb_loader dmb_ranked].
  change (fold_left (mem_step bs) (map WriteTable ts) mem_init) with (mem_run bs (map WriteTable ts)).
  assert (E : m_table (mem_flush (mem_run bs (map WriteTable ts))) = concat ts).
  { change (mem_read (mem_run bs (map WriteTable ts)) = concat ts).
    rewrite mem_order by (apply mem_safe_guarded, tables_guarded_all). apply written_tables. }
  assert (E2 : mem_read (mem_sort_by dsort (mem_flush (mem_run bs (map WriteTable ts)))) = dsort (concat ts)).
  { unfold mem_sort_by, mem_read. unfold mem_flush at 1. cbn [m_buffer m_table]. rewrite mem_buffer_flush. cbn [m_table].
    unfold mem_flush at 1. rewrite mem_buffer_flush. rewrite E. reflexivity. }
  rewrite E2, E. destruct (concat ts) as [|x l]; [reflexivity|]. cbn [length Nat.eqb].
  unfold rank_ops, sort_ops. cbn [length Nat.eqb map app].
  eexists. split; [reflexivity|]. cbn [de_detailed de_ranked de_labels det_labels_of]. split; [reflexivity|]. split; [reflexivity|].
  cbn [concat]. rewrite app_nil_r.
  set (ops := [WriteTable (rank_table unit (dsort (x :: l))); Flush]).
  assert (E3 : mem_read (mem_flush (fold_left (mem_step bs) ops mem_init)) = rank_table unit (dsort (x :: l))).
  { unfold mem_read. unfold mem_flush at 1. rewrite mem_buffer_flush.
    change (m_table (mem_flush (fold_left (mem_step bs) ops mem_init))) with (mem_read (mem_run bs ops)).
    rewrite mem_order; [|apply mem_safe_guarded; reflexivity]. unfold written. cbn [map concat op_rows]. cbn. rewrite ?app_nil_r. reflexivity. }
  rewrite E3. apply ranked_of_single.
Qed.

Lemma det_filter_build_spec unit bs rpf rb e datums gts pds : batching_ok rb ->
  let ts := det_filter_tables datums gts pds (de_detailed e) in
  match concat ts with
  | [] => exists b, det_filter_build unit bs rpf rb e datums gts pds = (b, EmptyCache)
  | _ :: _ => exists b gs, det_filter_build unit bs rpf rb e datums gts pds = (b, Done (de_labels e)) /\ concat gs = ts /\
      (forall listing, Permutation listing (f_dir (dfb_detailed b)) -> file_tables listing = map dsort (map (@concat drow) gs)) /\
      (forall listing, Permutation listing (f_dir (dfb_ranked b)) -> file_tables listing = file_tables (f_dir (dfb_ranked b))) /\
      ranked_of unit (map dsort (map (@concat drow) gs)) (concat (file_tables (f_dir (dfb_ranked b))))
  end.
Proof.
  intros Hrb. cbv zeta. unfold det_filter_build. set (ts := det_filter_tables datums gts pds (de_detailed e)).
  unfold dfb_finalize_as. cbn [dfb_detailed dfb_loader dfb_ranked].
  change (fold_left (file_step bs rpf) (map WriteTable ts) file_init) with (file_run bs rpf (map WriteTable ts)).
  destruct (file_pipe_ops dsort bs rpf (map WriteTable ts)) as (gs & Hc & Ht & Hlist). rewrite batches_tables in Hc.
  rewrite count_rows_concat, Ht, concat_map_concat, Hc.
  destruct (concat ts) as [|x l] eqn:E; [eexists; reflexivity|]. cbn [length Nat.eqb].
  set (w2 := file_sort_by dsort (file_flush (file_run bs rpf (map WriteTable ts)))) in *.
  destruct (c06_override det_sorting bs rpf (rank_table unit) rb (file_tables (f_dir w2)) Hrb) as (ops & Hops & Hsort).
  { intros t _. apply rank_table_sorted. }
  unfold rank_ops. rewrite Hops.
  assert (Hlf : forall listing, Permutation listing (f_dir (file_flush (fold_left (file_step bs rpf) ops file_init))) -> lists_files bs rpf ops listing) by (intros; assumption).
  eexists. exists gs. split; [reflexivity|]. split; [exact Hc|]. cbn [dfb_detailed dfb_ranked det_labels_of].
  split; [exact Hlist|]. split.
  - intros listing Hp. eapply c05_listing; [apply Hlf; exact Hp|apply Hlf; reflexivity].
  - rewrite (file_order bs rpf ops) by (apply Hlf; reflexivity). rewrite <- (Hlist (f_dir w2) (Permutation_refl _)). exact Hsort.
Qed.

Lemma det_filter_file_spec unit bs rpf rb e datums gts pds : batching_ok rb ->
  let ts := det_filter_tables datums gts pds (de_detailed e) in
  match concat ts with
  | [] => det_filter_file unit bs rpf rb e datums gts pds = EmptyCache
  | _ :: _ => exists e' gs, det_filter_file unit bs rpf rb e datums gts pds = Done e' /\ concat gs = ts /\
      de_detailed e' = map dsort (map (@concat drow) gs) /\ de_labels e' = de_labels e /\ ranked_of unit (de_detailed e') (concat (de_ranked e'))
  end.
Proof.
  intros Hrb. assert (H := det_filter_build_spec unit bs rpf rb e datums gts pds Hrb). cbv zeta in *. unfold det_filter_file.
  destruct (concat (det_filter_tables datums gts pds (de_detailed e))) as [|x l].
  - destruct H as (b & ->). reflexivity.
  - destruct H as (b & gs & -> & Hc & Hd & Hr & HR). exists (dfe b (de_labels e)), gs. split; [reflexivity|]. split; [exact Hc|].
    unfold dfe. cbn [de_detailed de_ranked de_labels]. rewrite (Hd _ (Permutation_refl _)). auto.
Qed.

(* ------------------------------------------------------------------ *)
(** * What every such evaluator holds *)

Section Good.
  Variables (eps unit : Z) (ds : list detection) (L : list String.string).

  Record good (w : dview) (e : deval) : Prop := {
    g_world : world eps ds L w (concat (de_detailed e));
    g_aligned : aligned d_datum (de_detailed e);
    g_order : by_datum_order (de_detailed e);
    g_ties : StronglySorted tie_order (concat (de_detailed e));
    g_ranked : ranked_of unit (de_detailed e) (concat (de_ranked e));
    g_labels : forall v vi, label_no e v vi <-> index_of v L = Some vi
  }.

  Lemma world_labels L' w T : (forall v i, index_of v L' = Some i <-> index_of v L = Some i) -> world eps ds L' w T -> world eps ds L w T.
  Proof.
    intros E [H1 H2 H3 H4].
    assert (G : forall i g r, carries_gt ds L' i g r <-> carries_gt ds L i g r).
    { intros i g r. split; intros (d & ga & v & gi & A1 & A2 & A3 & A4 & A5); exists d, ga, v, gi; (split; [exact A1|]; split; [exact A2|]; split; [exact A3|]; split; [apply E; exact A4|exact A5]). }
    assert (P : forall i p v s r, carries_pd ds L' i p v s r <-> carries_pd ds L i p v s r).
    { intros i p v s r. split; intros (d & pa & n & pi & A1 & A2 & A3 & A4 & A5 & A6); exists d, pa, n, pi;
        (split; [exact A1|]; split; [exact A2|]; split; [exact A3|]; split; [exact A4|]; split; [apply E; exact A5|exact A6]). }
    constructor.
    - intros r Hr. destruct (H1 r Hr) as [(i & d & g & p & v & s & A)|[(i & d & g & A)|(i & d & p & v & s & A)]]; rewrite ?G, ?P in A.
      + left. exists i, d, g, p, v, s. exact A.
      + right. left. exists i, d, g. exact A.
      + right. right. exists i, d, p, v, s. exact A.
    - intros i d g A B C. destruct (H2 i d g A B C) as (r & Hr & Hc). exists r. rewrite G in Hc. auto.
    - intros i d p pa n v s A B C D F. destruct (H3 i d p pa n v s A B C D F) as (r & Hr & Hc). exists r. rewrite P in Hc. auto.
    - intros i d g p pa n v s A B C D F K M N. destruct (H4 i d g p pa n v s A B C D F K M N) as (r & Hr & Hc & Hc'). exists r. rewrite G in Hc. rewrite P in Hc'. auto.
  Qed.

  Theorem shows_good w e : det_input unit ds -> shows eps unit ds L w e -> good w e.
  Proof.
    intros Hin H. induction H as [e He Hl|w e bs rb datums gts pds sel sg sp e' H IH Hsel Hsg Hsp Hf|w e bs rpf rb datums gts pds sel sg sp e' Hrb H IH Hsel Hsg Hsp Hf].
    - destruct (end_facts eps unit ds Hin e He) as (L0 & Hst & HR & _ & B & _).
      destruct (end_groups eps unit ds Hin e He) as (l & G & El & Hl' & Ha & Ec & Ed & Eb & Hst' & _).
      assert (W := stored_world eps unit ds L0 _ Hin Hst). constructor.
      + apply (world_labels L0); [intros v i; rewrite <- B; apply Hl|]. exact W.
      + rewrite Ed. apply aligned_map_sort. exact Ha.
      + rewrite Ed. apply groups_datum_order; [exact Ha|]. rewrite Ec. apply (ld_sorted _ _ _ Hl').
      + apply (ties_built eps unit ds e Hin He). intros r Hr. destruct (row_datum eps ds L0 full_view (de_detailed e) W r Hr) as (i & d & Hi & E & _). eauto.
      + exact HR.
      + exact Hl.
    - destruct IH as [W A O T _ B]. assert (T' := ties_from _ _ (from_filter_tables datums gts pds (de_detailed e)) T). assert (S := det_filter_mem_spec unit bs rb e datums gts pds). cbv zeta in S.
      assert (W' := filter_world eps ds L w (de_detailed e) W datums gts pds sel sg sp Hsel Hsg Hsp).
      destruct (concat (det_filter_tables datums gts pds (de_detailed e))) as [|x l] eqn:E; [congruence|].
      destruct S as (e0 & S1 & S2 & S3 & S4). assert (e0 = e') by congruence. subst e0. constructor.
      + rewrite S2. cbn [concat]. rewrite app_nil_r. apply (world_same eps ds L _ (x :: l)); [intros r; symmetry; apply in_dsort|exact W'].
      + rewrite S2. apply aligned_single.
      + rewrite S2. apply order_single.
      + rewrite S2. cbn [concat]. rewrite app_nil_r. apply ties_dsort. exact T'.
      + exact S4.
      + intros v vi. unfold label_no. rewrite S3. apply B.
    - destruct IH as [W A O T _ B]. assert (T' := ties_from _ _ (from_filter_tables datums gts pds (de_detailed e)) T). assert (S := det_filter_file_spec unit bs rpf rb e datums gts pds Hrb). cbv zeta in S.
      assert (W' := filter_world eps ds L w (de_detailed e) W datums gts pds sel sg sp Hsel Hsg Hsp).
      assert (A' := filter_aligned (de_detailed e) A datums gts pds).
      assert (O' := filter_order (de_detailed e) datums gts pds O).
      set (ts := det_filter_tables datums gts pds (de_detailed e)) in *.
      destruct (concat ts) as [|x l] eqn:E; [congruence|]. rewrite <- E in W'.
      destruct S as (e0 & gs & S1 & Sg & S2 & S3 & S4). assert (e0 = e') by congruence. subst e0. constructor.
      + rewrite S2. apply (world_same eps ds L _ (concat ts)); [|exact W'].
        intros r. rewrite <- Sg, <- concat_map_concat, !in_concat. split; intros (t & Ht & Hr).
        * exists (dsort t). split; [apply in_map; exact Ht|apply in_dsort; exact Hr].
        * apply in_map_iff in Ht. destruct Ht as (t0 & <- & Ht). exists t0. split; [exact Ht|apply in_dsort; exact Hr].
      + rewrite S2. apply aligned_map_sort, aligned_groups. rewrite Sg. exact A'.
      + rewrite S2. apply order_sorted, order_groups. rewrite Sg. exact O'.
      + rewrite S2. apply ties_sorted. rewrite concat_map_concat, Sg, E. exact T'.
      + exact S4.
      + intros v vi. unfold label_no. rewrite S3. apply B.
  Qed.
End Good.
