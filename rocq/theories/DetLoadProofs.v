(* The metric lists of evaluators derived by filters, and of filtered caches loaded without
   their labels. *)
From Verif Require Import Prelude Counting CacheModel CacheSpec CacheProofs Pipeline ClsModel ClsLabelProofs FlowModel DetLoaderProofs
  DetModel DetSpec DetRankProofs DetCountProofs DetStoreProofs DetMain DetFlowModel DetFlowProofs DetOrderProofs DetReportModel DetApProofs DetApEnd DetScoreModel DetEnd DetMore
  DetFilterModel DetFilterSpec DetFilterProofs DetFilterEntries DetFilterPruned DetFilterMain DetFilterMore
  FloatModel FloatProofs FloatCurveProofs DetArrayModel DetArraySpec DetArrayProofs DetArrayMain DetArrayFilter
  DetUnpackModel DetUnpackSpec DetUnpackProofs DetLoadSpec SegLoadProofs.
From Coq Require Import QArith Permutation Lia.
From Coq Require String.
Local Open Scope nat_scope.
Local Open Scope list_scope.

Lemma dsort_nil t : dsort t = [] -> t = [].
Proof. intros H. destruct t as [|r t]; [reflexivity|]. exfalso. assert (X : In r (dsort (r :: t))) by (apply in_dsort; left; reflexivity). rewrite H in X. destruct X. Qed.
Lemma built_rows eps unit ds e : det_input unit ds -> det_evaluator eps unit ds e -> List.concat (de_detailed e) <> [].
Proof.
  intros Hin [(bs & rb & calls & Ec & He)|(bs & rpf & rb & calls & Hrb & Ec & He)].
  - destruct (mem_evaluates_spec eps unit ds Hin bs rb calls e Ec He) as (l & El & Hl & _ & _ & _ & Ed).
    rewrite Ed. cbn [map List.concat]. rewrite app_nil_r. intros Hn.
    assert (Ew : List.concat (l_writes l) = []).
    { apply dsort_nil. exact Hn. }
    destruct He as (b & b' & Hb & Hf). rewrite <- Ec in El. destruct (dmb_adds_state eps bs calls dmb_init dloader_init l) as (b1 & A1 & A2 & A3 & A4); auto.
    assert (b1 = b) by congruence. subst b1. unfold dmb_finalize in Hf. rewrite A3, mem_rows_table, Ew in Hf. cbn in Hf. inversion Hf.
  - destruct (file_evaluates_spec eps unit ds Hin bs rpf rb calls e Hrb Ec He) as (l & gs & El & Hl & _ & _ & _ & Eg & Ed).
    intros Hn.
    assert (Ew : List.concat (l_writes l) = []).
    { destruct He as (b & b' & labels & Hb & Hf & _). rewrite <- Eg. rewrite Ed in Hn. clear - Hn.
      induction gs as [|g gs IH]; [reflexivity|]. cbn [map List.concat] in Hn |- *. apply app_eq_nil in Hn. destruct Hn as [H1 H2].
      rewrite concat_app, (IH H2), app_nil_r. apply dsort_nil. exact H1. }
    destruct He as (b & b' & labels & Hb & Hf & _). rewrite <- Ec in El.
    destruct (dfb_adds_state eps bs rpf calls dfb_init dloader_init l) as (b1 & A1 & A2 & A3 & A4); auto.
    assert (b1 = b) by congruence. subst b1. unfold dfb_finalize in Hf. rewrite A3 in Hf.
    rewrite (file_rows_count' _ (Hnonempty eps (List.concat calls) l El)) in Hf. rewrite Ew in Hf. cbn in Hf. inversion Hf.
Qed.
Lemma shown_rows eps unit ds L w e : det_input unit ds -> shows eps unit ds L w e -> List.concat (de_detailed e) <> [].
Proof.
  intros Hin H. inversion H as [e' He Hl|w0 e0 bs rb datums gts pds sel sg sp e' H0 Hsel Hsg Hsp Hf|w0 e0 bs rpf rb datums gts pds sel sg sp e' Hrb H0 Hsel Hsg Hsp Hf]; subst.
  - apply (built_rows eps unit ds e Hin He).
  - assert (Hw := g_world _ _ _ _ _ _ (shows_good eps unit ds L _ e Hin H)). apply (world_nothing eps unit) in Hw; [|exact Hin]. intros X. apply Hw in X.
    destruct (filter_mem_outcome eps unit ds L w0 e0 bs rb datums gts pds sel sg sp Hin H0 Hsel Hsg Hsp) as [(E & _)|(e1 & _ & N)]; [congruence|contradiction].
  - assert (Hw := g_world _ _ _ _ _ _ (shows_good eps unit ds L _ e Hin H)). apply (world_nothing eps unit) in Hw; [|exact Hin]. intros X. apply Hw in X.
    destruct (filter_file_outcome eps unit ds L w0 e0 bs rpf rb datums gts pds sel sg sp Hin Hrb H0 Hsel Hsg Hsp) as [(E & _)|(e1 & _ & N)]; [congruence|contradiction].
Qed.

Section Shown.
  Variables (eps unit : Z) (ds : list detection) (L : list String.string) (w : dview) (e : deval).
  Hypothesis Hin : det_input unit ds.
  Hypothesis Hsh : shows eps unit ds L w e.
  Let Hg : good eps unit ds L w e := shows_good eps unit ds L w e Hin Hsh.
  Let Hw : world eps ds L w (List.concat (de_detailed e)) := g_world _ _ _ _ _ _ Hg.
  Local Notation D := (det_extract_labels (de_detailed e)).
  Local Notation loaded := (MkDE (de_detailed e) (de_ranked e) D).

  (* every number below the number of labels is the number of a label *)
  Lemma shown_numbers vi : vi < List.length (de_labels e) -> exists v, label_no e v vi.
  Proof.
    intros H. destruct (shows_origin eps unit ds L w e Hsh) as (e0 & He0 & El & _). unfold label_no. rewrite El in H |- *.
    destruct (end_facts eps unit ds Hin e0 He0) as (L0 & Hst & _ & _ & B & _ & HL & _). rewrite HL in H.
    destruct (nth_error L0 vi) as [v|] eqn:E; [|apply nth_error_None in E; lia]. exists v. apply B. apply index_of_NoDup; [|exact E].
    apply (stored_NoDup eps unit ds L0 (de_detailed e0) Hin Hst).
  Qed.
  Lemma shown_keys kl : In kl (de_labels e) -> inside (List.length (de_labels e)) (fst kl).
  Proof.
    destruct (shows_origin eps unit ds L w e Hsh) as (e0 & He0 & El & _). rewrite El.
    destruct (end_facts eps unit ds Hin e0 He0) as (L0 & _ & _ & _ & _ & _ & HL & HK & _). destruct kl as [k v]. intros H. apply HK in H.
    destruct H as (s & vi & _ & -> & Hx). apply index_of_nth in Hx. assert (vi < List.length L0) by (apply nth_error_Some; congruence). cbn [fst]. rewrite HL. unfold inside. lia.
  Qed.

  Lemma row_ids r : In r (List.concat (de_detailed e)) -> id_label_ok L (d_gl r) (d_gt_label r) /\ id_label_ok L (d_pl r) (d_pd_label r).
  Proof.
    intros Hr.
    assert (G : forall i g, carries_gt ds L i g r -> id_label_ok L (d_gl r) (d_gt_label r)).
    { intros i g (d & ga & v & gi & _ & _ & _ & Hx & _ & _ & _ & _ & -> & ->). right. split; [lia|]. exists v. split; [reflexivity|]. rewrite Nat2Z.id. apply index_of_nth, Hx. }
    assert (P : forall i p v s, carries_pd ds L i p v s r -> id_label_ok L (d_pl r) (d_pd_label r)).
    { intros i p v s (d & pa & m & pi & _ & _ & _ & _ & Hx & _ & _ & _ & _ & -> & -> & _). right. split; [lia|]. exists v. split; [reflexivity|]. rewrite Nat2Z.id. apply index_of_nth, Hx. }
    destruct (w_rows _ _ _ _ _ Hw r Hr) as [(i & d & g & p & v & s & _ & Cg & Cp & _)|[(i & d & g & _ & Cg & Lp & _)|(i & d & p & v & s & _ & Cp & Lg & _)]].
    - split; [apply (G i g Cg)|apply (P i p v s Cp)].
    - split; [apply (G i g Cg)|]. left. apply Lp.
    - split; [|apply (P i p v s Cp)]. left. apply Lg.
  Qed.
  Lemma extract_sound : sound_ldict L D.
  Proof. apply det_extract_gen. exact row_ids. Qed.
  Lemma extract_keys x : In x (map fst D) <-> exists v vi, x = Z.of_nat vi /\ index_of v L = Some vi /\ label_left ds w v.
  Proof.
    rewrite (proj2 (det_extract_gen L (de_detailed e) row_ids) x). split.
    - intros ([H|H] & N); apply in_map_iff in H; destruct H as (r & <- & Hr).
      + assert (G : forall i d g, nth_error ds i = Some d -> carries_gt ds L i g r -> v_gt w d g = true -> exists v vi, d_gl r = Z.of_nat vi /\ index_of v L = Some vi /\ label_left ds w v).
        { intros i d g Hi (d' & ga & v & gi & Hi' & Hga & Hv & Hx & _ & _ & _ & _ & _ & ->) V. assert (d' = d) by congruence. subst d'. exists v, gi.
          split; [reflexivity|]. split; [exact Hx|]. exists d. split; [apply (nth_error_In _ _ Hi)|]. left. exists g, ga. rewrite Hv. split; [exact Hga|]. split; [left; reflexivity|exact V]. }
        destruct (w_rows _ _ _ _ _ Hw r Hr) as [(i & d & g & p & v & s & Hi & Cg & _ & _ & _ & V & _)|[(i & d & g & Hi & Cg & _ & _ & V)|(i & d & p & v & s & _ & _ & Lg & _)]].
        * apply (G i d g Hi Cg V).
        * apply (G i d g Hi Cg V).
        * exfalso. apply N, Lg.
      + assert (P : forall i d p v s, nth_error ds i = Some d -> carries_pd ds L i p v s r -> v_pd w d p v = true -> exists v vi, d_pl r = Z.of_nat vi /\ index_of v L = Some vi /\ label_left ds w v).
        { intros i d p v s Hi (d' & pa & m & pi & Hi' & Hpa & Hv & _ & Hx & _ & _ & _ & _ & _ & -> & _) V. assert (d' = d) by congruence. subst d'. exists v, pi.
          split; [reflexivity|]. split; [exact Hx|]. exists d. split; [apply (nth_error_In _ _ Hi)|]. right. exists p, pa. split; [exact Hpa|]. split; [apply (nth_error_In _ _ Hv)|exact V]. }
        destruct (w_rows _ _ _ _ _ Hw r Hr) as [(i & d & g & p & v & s & Hi & _ & Cp & _ & _ & _ & V)|[(i & d & g & _ & _ & Lp & _)|(i & d & p & v & s & Hi & Cp & _ & _ & V)]].
        * apply (P i d p v s Hi Cp V).
        * exfalso. apply N, Lp.
        * apply (P i d p v s Hi Cp V).
    - intros (v & vi & -> & Hx & d & Hd & H). split; [|lia]. apply In_nth_error in Hd. destruct Hd as (i & Hi).
      destruct H as [(g & ga & Hga & Hv & V)|(p & pa & Hpa & Hv & V)].
      + left. assert (Hlt : g < List.length (t_gts d)) by (apply nth_error_Some; congruence).
        destruct (w_gt_in _ _ _ _ _ Hw i d g Hi Hlt V) as (r & Hr & (d' & ga' & v' & gi & Hi' & Hga' & Hv' & Hx' & _ & _ & _ & _ & _ & E)).
        assert (d' = d) by congruence. subst d'. assert (ga' = ga) by congruence. subst ga'. rewrite Hv' in Hv. destruct Hv as [<-|[]].
        apply in_map_iff. exists r. split; [|exact Hr]. rewrite E. congruence.
      + right. assert (Hl := scores_len unit ds Hin d p pa i Hi Hpa). apply In_nth_error in Hv. destruct Hv as (m & Hm).
        destruct (nth_error (a_scores pa) m) as [s|] eqn:Es.
        * destruct (w_pd_in _ _ _ _ _ Hw i d p pa m v s Hi Hpa Hm Es V) as (r & Hr & (d' & pa' & m' & pi & _ & _ & _ & _ & Hx' & _ & _ & _ & _ & _ & E & _)).
          apply in_map_iff. exists r. split; [|exact Hr]. rewrite E. congruence.
        * apply nth_error_None in Es. assert (m < List.length (a_labels pa)) by (apply nth_error_Some; congruence). lia.
  Qed.
  Lemma extract_nonempty : D <> [].
  Proof.
    assert (X : exists r, In r (List.concat (de_detailed e))).
    { assert (N := shown_rows eps unit ds L w e Hin Hsh). clear - N. destruct (List.concat (de_detailed e)) as [|r rs]; [congruence|exists r; left; reflexivity]. }
    destruct X as (r & Hr).
    assert (X : exists x, In x (map fst D)).
    { destruct (w_rows _ _ _ _ _ Hw r Hr) as [(i & d & g & p & v & s & _ & Cg & _)|[(i & d & g & _ & Cg & _)|(i & d & p & v & s & _ & Cp & _)]].
      - exists (d_gl r). apply (proj2 (det_extract_gen L (de_detailed e) row_ids)). split; [left; apply in_map; exact Hr|].
        destruct Cg as (? & ? & ? & gi & _ & _ & _ & _ & _ & _ & _ & _ & _ & ->). lia.
      - exists (d_gl r). apply (proj2 (det_extract_gen L (de_detailed e) row_ids)). split; [left; apply in_map; exact Hr|].
        destruct Cg as (? & ? & ? & gi & _ & _ & _ & _ & _ & _ & _ & _ & _ & ->). lia.
      - exists (d_pl r). apply (proj2 (det_extract_gen L (de_detailed e) row_ids)). split; [right; apply in_map; exact Hr|].
        destruct Cp as (? & ? & ? & pi & _ & _ & _ & _ & _ & _ & _ & _ & _ & _ & -> & _). lia. }
    destruct X as (x & X). intros Y. rewrite Y in X. destruct X.
  Qed.
  Lemma shown_labels_nonempty : de_labels e <> [].
  Proof.
    destruct D as [|[k v] t] eqn:E; [exfalso; apply extract_nonempty; exact E|].
    assert (X : In k (map fst D)) by (rewrite E; left; reflexivity). apply extract_keys in X. destruct X as (l & vi & _ & Hx & _).
    assert (Y := label_fits eps unit ds L w e Hin Hsh l vi Hx). unfold inside in Y. destruct (de_labels e); [cbn in Y; lia|discriminate].
  Qed.

  (* the labels that are left keep their numbers *)
  Lemma loaded_numbers v vi : label_no loaded v vi <-> label_no e v vi /\ label_left ds w v.
  Proof.
    rewrite (g_labels _ _ _ _ _ _ Hg v vi). destruct extract_sound as (ND & HS). unfold label_no. cbn [de_labels]. split.
    - intros H. apply (ldict_get_In L _ _ _ extract_sound) in H. assert (K : In (Z.of_nat vi) (map fst D)) by (apply in_map_iff; exists (Z.of_nat vi, Some v); auto).
      apply extract_keys in K. destruct K as (u & ui & Eu & Hu & HL). assert (ui = vi) by lia. subst ui.
      destruct (HS _ _ H) as (_ & l & El & Hl). rewrite Nat2Z.id in Hl. injection El as <-. apply index_of_nth in Hu as Hu'. assert (u = v) by congruence. subst u. split; assumption.
    - intros (Hx & HL). assert (K : In (Z.of_nat vi) (map fst D)) by (apply extract_keys; exists v, vi; auto).
      apply in_map_iff in K. destruct K as ([k o] & E & K). cbn [fst] in E. subst k. destruct (HS _ _ K) as (_ & l & -> & Hl). rewrite Nat2Z.id in Hl.
      apply index_of_nth in Hx. assert (l = v) by congruence. subst l. apply (ldict_get_In L _ _ _ extract_sound). exact K.
  Qed.

  (* if the labels that are left have the lowest numbers, all numbers fit *)
  Lemma lowest_fits k : lowest_left e ds w k -> forall x, In x (map fst D) -> (x < Z.of_nat (List.length D))%Z.
  Proof.
    intros Hk.
    assert (P : Permutation (map fst D) (map Z.of_nat (seq 0 (Nat.min k (List.length (de_labels e)))))).
    { apply NoDup_Permutation.
      - apply extract_sound.
      - apply FinFun.Injective_map_NoDup; [intros a b; apply Nat2Z.inj|apply seq_NoDup].
      - intros x. rewrite extract_keys. split.
        + intros (v & vi & -> & Hx & HL). apply in_map. apply in_seq. assert (X := label_fits eps unit ds L w e Hin Hsh v vi Hx). unfold inside in X.
          apply (g_labels _ _ _ _ _ _ Hg) in Hx. apply (Hk v vi Hx) in HL. lia.
        + intros H. apply in_map_iff in H. destruct H as (vi & <- & H). apply in_seq in H. destruct (shown_numbers vi) as (v & Hv); [lia|].
          exists v, vi. split; [reflexivity|]. split; [apply (g_labels _ _ _ _ _ _ Hg); exact Hv|]. apply (Hk v vi Hv). lia. }
    intros x Hx. assert (E := Permutation_length P). rewrite !map_length, seq_length in E. apply (Permutation_in x P) in Hx.
    apply in_map_iff in Hx. destruct Hx as (vi & <- & H). apply in_seq in H. lia.
  Qed.
  Lemma fits_lowest : (forall x, In x (map fst D) -> (x < Z.of_nat (List.length D))%Z) -> lowest_left e ds w (List.length D).
  Proof.
    intros H v vi Hv. apply (g_labels _ _ _ _ _ _ Hg) in Hv as Hx. split.
    - intros HL. assert (X : In (Z.of_nat vi) (map fst D)) by (apply extract_keys; exists v, vi; auto). apply H in X. lia.
    - intros Hlt. assert (X : In (Z.of_nat vi) (map fst D)).
      { apply (Permutation_in _ (Permutation_sym (keys_perm L D extract_sound H))). apply in_map, in_seq. lia. }
      apply extract_keys in X. destruct X as (u & ui & Eu & Hu & HL). assert (ui = vi) by lia. subst ui.
      apply index_of_nth in Hu. apply index_of_nth in Hx. assert (u = v) by congruence. subst u. exact HL.
  Qed.

  Section Metrics.
    Hypothesis Hu : (0 <= unit)%Z.
    Hypothesis Hfew : few_det_labels ds.
    Variables (datums : drow -> bool) (sel : detection -> bool).
    Hypothesis Hsel : det_selects ds datums sel.
    Variable order : list (cell * Q) -> list (cell * Q).
    Hypothesis Ho : descending order.
    Variables ious scores : list Z.
    Hypothesis Hi : ious <> [].
    Hypothesis Hs : scores <> [].

    Theorem shown_metrics : exists m, np_metrics eps exact_index order ious scores e datums = AOk m /\ metrics_ok eps e datums ious scores m.
    Proof.
      apply metrics_from_arrays; [exact shown_keys|exact shown_labels_nonempty|exact Hi|].
      apply (shown_arrays eps unit ds L w e Hu Hin Hfew Hsh datums sel Hsel order Ho ious scores Hi Hs).
    Qed.

    Theorem loaded_metrics k : lowest_left e ds w k ->
      exists m, np_metrics eps exact_index order ious scores loaded datums = AOk m /\ metrics_ok eps loaded datums ious scores m.
    Proof.
      intros Hk. assert (Hlow := lowest_fits k Hk).
      assert (Hkey : forall x, In x (map fst D) -> inside (List.length D) x).
      { intros x Hx. split; [|apply Hlow, Hx]. apply extract_keys in Hx. destruct Hx as (v & vi & -> & _). lia. }
      apply metrics_from_arrays; [intros kl Hkl; apply Hkey; cbn [de_labels] in Hkl; apply in_map, Hkl|exact extract_nonempty|exact Hi|].
      destruct (arrays_ok eps exact_index order ious scores loaded datums Ho Hi Hs) as (G & C & P & E & A1 & A2 & A3).
      - cbn [de_labels de_detailed]. intros r Hr _ H0. apply Hkey. apply (proj2 (det_extract_gen L (de_detailed e) row_ids)).
        split; [left; apply in_map; exact Hr|]. assert (X := shown_gt_inside eps unit ds L w e Hin Hsh r Hr H0). unfold inside in X. lia.
      - cbn [de_labels de_ranked]. intros r Hr _. apply Hkey. apply (proj2 (det_extract_gen L (de_detailed e) row_ids)).
        destruct (shown_ranked_row eps unit ds L w e Hu Hin Hsh datums sel Hsel r Hr) as (X & _).
        destruct (ranked_In _ _ _ _ (g_ranked _ _ _ _ _ _ Hg) Hr) as (tb & r0 & Htb & Hr0 & Hst & _). destruct (strip_fields r r0 Hst) as (_ & _ & _ & _ & El & _).
        split; [|unfold inside in X; lia]. right. apply in_map_iff. exists r0. split; [exact El|]. apply in_concat. exists tb. auto.
      - intros t p _ Hp. change (rep_gts loaded datums) with (rep_gts e datums). cbn [de_ranked] in Hp.
        unfold exact_index. destruct (shown_point eps unit ds L w e Hu Hin Hfew Hsh datums sel Hsel t p Hp) as [->|H].
        + rewrite Nat.mul_0_r. destruct (rep_gts e datums (d_pl (fst (fst p)))) as [|q]; [cbn; lia|rewrite Nat.div_0_l; lia].
        + destruct (rep_gts e datums (d_pl (fst (fst p)))) as [|q]; [cbn; lia|]. apply Nat.div_le_upper_bound; lia.
      - exists G, C, P. split; [exact E|]. split; [exact A1|]. split; [exact A2|].
        eapply Forall2_weaken; [|exact A3]. intros t p (B1 & B2). split; [exact B1|]. intros l row Hrow. destruct (B2 l row Hrow) as (D1 & D2). split; [exact D1|].
        intros b x Hx. destruct (D2 b x Hx) as (F1 & F2). cbn [de_ranked] in F1, F2. rewrite (reading_exact eps (rep_gts loaded datums) t datums (de_ranked e) (Z.of_nat l) b) in F1, F2. split; assumption.
    Qed.
  End Metrics.

  Theorem loaded_needs bin order ious scores datums m : np_metrics eps bin order ious scores loaded datums = AOk m -> exists k, lowest_left e ds w k.
  Proof.
    intros H. exists (List.length D). apply fits_lowest. intros x Hx. apply in_map_iff in Hx. destruct Hx as (kl & <- & Hkl).
    assert (X := metrics_need eps bin order ious scores loaded datums m). cbn [de_labels] in X.
    refine (proj2 (X _ H kl Hkl)). intros kl' Hkl'. assert (Y : In (fst kl') (map fst D)) by (apply in_map, Hkl').
    apply extract_keys in Y. destruct Y as (v & vi & -> & _). lia.
  Qed.
End Shown.

Section File.
  Variables (eps unit : Z) (ds : list detection) (L : list String.string) (w : dview) (e : deval).
  Hypothesis Hin : det_input unit ds.
  Hypothesis Hsh : shows eps unit ds L w e.
  Variables (bs rpf : nat) (rb : list drow -> list (list drow)) (dat : drow -> bool) (gts pds : option (drow -> bool)).
  Variables (sel : detection -> bool) (sg : detection -> nat -> bool) (sp : detection -> nat -> String.string -> bool).
  Variables (b : dfb) (labels : ldict) (l1 l2 : dir drow).
  Hypothesis Hrb : batching_ok rb.
  Hypothesis Hsel : det_selects ds dat sel.
  Hypothesis Hsg : gt_filter ds L gts sg.
  Hypothesis Hsp : pd_filter ds L pds sp.
  Hypothesis Hb : det_filter_build unit bs rpf rb e dat gts pds = (b, Done labels).
  Hypothesis H1 : Permutation l1 (f_dir (dfb_detailed b)).
  Hypothesis H2 : Permutation l2 (f_dir (dfb_ranked b)).
  Local Notation u := (restrict w sel sg sp).
  Local Notation full := (det_load l1 l2 (Some labels)).

  Lemma full_shows : shows eps unit ds L u full.
  Proof.
    destruct (load_filtered unit bs rpf rb e dat gts pds b labels l1 l2 Hrb Hb H1 H2) as (E & _).
    eapply Shows_filter_file; eauto.
  Qed.
  Lemma full_numbers v vi : label_no full v vi <-> label_no e v vi.
  Proof.
    destruct (load_filtered unit bs rpf rb e dat gts pds b labels l1 l2 Hrb Hb H1 H2) as (_ & E). unfold label_no, det_load. cbn [de_labels det_labels_of]. rewrite E. reflexivity.
  Qed.
  Theorem file_works order ious scores datums sel' k : (0 <= unit)%Z -> few_det_labels ds -> det_selects ds datums sel' -> descending order -> ious <> [] -> scores <> [] ->
    lowest_left e ds u k ->
    exists m, np_metrics eps exact_index order ious scores (det_load l1 l2 None) datums = AOk m /\ metrics_ok eps (det_load l1 l2 None) datums ious scores m.
  Proof.
    intros Hu Hfew Hsel' Ho Hi Hs Hk.
    apply (loaded_metrics eps unit ds L u full Hin full_shows Hu Hfew datums sel' Hsel' order Ho ious scores Hi Hs k).
    intros v vi Hv. apply Hk. apply full_numbers. exact Hv.
  Qed.
  Theorem file_numbers v vi : label_no (det_load l1 l2 None) v vi <-> label_no e v vi /\ label_left ds u v.
  Proof.
    rewrite <- (full_numbers v vi). apply (loaded_numbers eps unit ds L u full Hin full_shows v vi).
  Qed.
  Theorem file_reports datums l : same_report eps (det_load l1 l2 None) datums l (det_load l1 l2 (Some labels)) datums l.
  Proof. constructor; reflexivity. Qed.
  Theorem file_needs bin order ious scores datums m : np_metrics eps bin order ious scores (det_load l1 l2 None) datums = AOk m -> exists k, lowest_left e ds u k.
  Proof.
    intros H. destruct (loaded_needs eps unit ds L u full Hin full_shows bin order ious scores datums m H) as (k & Hk). exists k.
    intros v vi Hv. apply Hk. apply full_numbers. exact Hv.
  Qed.
End File.
