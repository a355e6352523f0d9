(* Filtered classification evaluators: what they hold. *)
From Verif Require Import Prelude Counting CacheModel CacheSpec CacheProofs CacheLemmas Pipeline SortProofs ClsModel ClsSpec ClsLabelProofs ClsProofs ClsConfProofs ClsLemmas ClsMore
  RocModel RocProofs RocMain FlowModel FlowProofs FlowMore SegFlowProofs DetFilterProofs ClsFilterModel ClsFilterSpec.
From Coq Require String.
Local Open Scope nat_scope.
Local Open Scope list_scope.

Local Notation csort := (table_sort_by cls_sorting).

Lemma finalize_as_none_mem bs rb b : mb_finalize_as None bs rb b = mb_finalize bs rb b.
Proof. reflexivity. Qed.
Lemma finalize_as_none_file bs rpf rb b : fb_finalize_as None bs rpf rb b = fb_finalize bs rpf rb b.
Proof. reflexivity. Qed.

Lemma curve_written bs curve : mem_read (mem_flush (fold_left (mem_step bs) (curve_ops curve) mem_init)) = curve.
Proof.
  unfold mem_read. unfold mem_flush at 1. rewrite mem_buffer_flush.
  change (m_table (mem_flush (fold_left (mem_step bs) (curve_ops curve) mem_init))) with (mem_read (mem_run bs (curve_ops curve))).
  rewrite mem_order.
  - unfold written, curve_ops. rewrite map_map. cbn [op_rows]. induction curve as [|p t IH]; [reflexivity|]. cbn. rewrite IH. reflexivity.
  - apply mem_safe_no_table. apply forallb_forall. intros o Ho. unfold curve_ops in Ho.
    apply in_map_iff in Ho. destruct Ho as (p & <- & _). reflexivity.
Qed.

(* ------------------------------------------------------------------ *)
(** * The result of filter *)

Lemma cls_filter_mem_spec bs rb e datums gts pds :
  let ts := filter_tables datums gts pds (ce_tables e) in
  match concat ts with
  | [] => cls_filter_mem bs rb e datums gts pds = EmptyCache
  | _ :: _ => exists e' inter, cls_filter_mem bs rb e datums gts pds = Done e' /\
      ce_tables e' = [csort (concat ts)] /\ ce_labels e' = ce_labels e /\
      stable_sort_of (row_leb roc_sorting) (map project (csort (concat ts))) inter /\
      ce_curve e' = [roc_curve (label_keys (ce_labels e)) [inter]]
  end.
Proof.
  cbv zeta. unfold cls_filter_mem. set (ts := filter_tables datums gts pds (ce_tables e)).
  unfold mb_finalize_as. cbn [mb_writer mb_labels mb_count mb_inter mb_curve].
  change (fold_left (mem_step bs) (map WriteTable ts) mem_init) with (mem_run bs (map WriteTable ts)).
  assert (E : m_table (mem_flush (mem_run bs (map WriteTable ts))) = concat ts).
  { change (mem_read (mem_run bs (map WriteTable ts)) = concat ts).
    rewrite mem_order by (apply mem_safe_guarded, tables_guarded_all). apply written_tables. }
  assert (E2 : mem_read (mem_sort_by csort (mem_flush (mem_run bs (map WriteTable ts)))) = csort (concat ts)).
  { unfold mem_sort_by, mem_read. unfold mem_flush at 1. cbn [m_buffer m_table]. rewrite mem_buffer_flush. cbn [m_table].
    unfold mem_flush at 1. rewrite mem_buffer_flush. rewrite E. reflexivity. }
  rewrite E2, E. destruct (concat ts) as [|x l]; [reflexivity|]. cbn [length Nat.eqb m_table mem_init Nat.ltb Nat.leb].
  set (tbl := csort (x :: l)).
  destruct (c08_single roc_sorting bs bs rb (map project tbl)) as (ops & Hops & Hsort). rewrite Hops.
  change (MkMem [] []) with (@mem_init irow). change (MkMem [] []) with (@mem_init cpoint).
  exists (ce_mem (MkME tbl (roc_curve (label_keys (ce_labels e)) [mem_read (mem_flush (fold_left (mem_step bs) ops mem_init))]) (ce_labels e))),
    (mem_read (mem_flush (fold_left (mem_step bs) ops mem_init))).
  cbn [snd cls_labels_of]. rewrite curve_written. split; [reflexivity|]. cbn [ce_mem ce_tables ce_labels ce_curve me_table me_curve me_labels].
  split; [reflexivity|]. split; [reflexivity|]. split; [|reflexivity].
  specialize (Hsort bs). unfold mem_read at 1. unfold mem_flush at 1. rewrite mem_buffer_flush. exact Hsort.
Qed.

Lemma cls_filter_build_spec bs rpf rb e datums gts pds : batching_ok rb ->
  let ts := filter_tables datums gts pds (ce_tables e) in
  match concat ts with
  | [] => exists b, cls_filter_build bs rpf rb e datums gts pds = (b, EmptyCache)
  | _ :: _ => exists b gs inter, cls_filter_build bs rpf rb e datums gts pds = (b, Done (ce_labels e)) /\ concat gs = ts /\
      (forall listing, Permutation listing (f_dir (fb_writer b)) -> file_tables listing = map csort (map (@concat crow) gs)) /\
      (forall listing, Permutation listing (f_dir (fb_curve b)) -> file_tables listing = fe_curve b) /\
      stable_sort_of (row_leb roc_sorting) (map project (concat (map csort (map (@concat crow) gs)))) (concat inter) /\
      concat (fe_curve b) = roc_curve (label_keys (ce_labels e)) inter
  end.
Proof.
  intros Hrb. cbv zeta. unfold cls_filter_build. set (ts := filter_tables datums gts pds (ce_tables e)).
  unfold fb_finalize_as. cbn [fb_writer fb_labels fb_count fb_inter fb_curve].
  change (fold_left (file_step bs rpf) (map WriteTable ts) file_init) with (file_run bs rpf (map WriteTable ts)).
  destruct (file_pipe_ops csort bs rpf (map WriteTable ts)) as (gs & Hc & Ht & Hlist). rewrite batches_tables in Hc.
  rewrite count_rows_concat, Ht, concat_map_concat, Hc.
  destruct (concat ts) as [|x l] eqn:E; [eexists; reflexivity|]. cbn [length Nat.eqb].
  cbn [file_init f_dir file_count_rows map list_sum_nat fold_right Nat.ltb Nat.leb].
  set (w2 := file_sort_by csort (file_flush (file_run bs rpf (map WriteTable ts)))) in *.
  destruct (c06_read roc_sorting bs rpf rb (map (map project) (file_tables (f_dir w2))) Hrb) as (ops & Hops & Hsort).
  rewrite Hops. change (MkFile [] None [] 0) with (@file_init irow). change (MkFile [] None [] 0) with (@file_init cpoint).
  set (inter := file_flush (fold_left (file_step bs rpf) ops file_init)).
  set (curve := roc_curve (label_keys (cls_labels_of (Some (ce_labels e)) (file_tables (f_dir w2)))) (file_tables (f_dir inter))).
  assert (Hlc : forall listing, Permutation listing (f_dir (file_flush (fold_left (file_step bs rpf) (curve_ops curve) file_init))) ->
                  lists_files bs rpf (curve_ops curve) listing) by (intros; assumption).
  eexists. exists gs, (file_tables (f_dir inter)). split; [reflexivity|]. split; [exact Hc|].
  cbn [fb_writer fb_curve]. unfold fe_curve. cbn [fb_curve].
  split; [exact Hlist|]. split; [|split].
  - intros listing Hp. eapply c05_listing; [apply Hlc; exact Hp|apply Hlc; reflexivity].
  - rewrite <- (Hlist (f_dir w2) (Permutation_refl _)), concat_map. apply (Hsort bs rpf). unfold lists_files. reflexivity.
  - rewrite (file_order bs rpf (curve_ops curve)) by (apply Hlc; reflexivity).
    unfold written, curve_ops. rewrite map_map. cbn [op_rows]. transitivity curve; [|reflexivity]. generalize curve. clear. intros curve.
    induction curve as [|p t IH]; [reflexivity|]. cbn. rewrite IH. reflexivity.
Qed.

Lemma cls_filter_file_spec bs rpf rb e datums gts pds : batching_ok rb ->
  let ts := filter_tables datums gts pds (ce_tables e) in
  match concat ts with
  | [] => cls_filter_file bs rpf rb e datums gts pds = EmptyCache
  | _ :: _ => exists e' gs inter, cls_filter_file bs rpf rb e datums gts pds = Done e' /\ concat gs = ts /\
      ce_tables e' = map csort (map (@concat crow) gs) /\ ce_labels e' = ce_labels e /\
      stable_sort_of (row_leb roc_sorting) (map project (concat (ce_tables e'))) (concat inter) /\
      concat (ce_curve e') = roc_curve (label_keys (ce_labels e)) inter
  end.
Proof.
  intros Hrb. assert (H := cls_filter_build_spec bs rpf rb e datums gts pds Hrb). cbv zeta in *. unfold cls_filter_file.
  destruct (concat (filter_tables datums gts pds (ce_tables e))) as [|x l].
  - destruct H as (b & ->). reflexivity.
  - destruct H as (b & gs & inter & -> & Hc & Hd & _ & HR & HC). exists (ce_file b (ce_labels e)), gs, inter.
    split; [reflexivity|]. split; [exact Hc|]. unfold ce_file. cbn [ce_tables ce_curve ce_labels]. unfold fe_tables.
    rewrite (Hd _ (Permutation_refl _)). auto.
Qed.

(* ------------------------------------------------------------------ *)
(** * What every such evaluator holds *)

Lemma sorted_tables_perm (ts : list (list crow)) : Forall2 (@Permutation crow) ts (map csort ts).
Proof. induction ts as [|t ts IH]; cbn; constructor; auto. apply sort_perm. Qed.

Section Good.
  Variable cs : list classification.
  Local Notation L := (labels_of cs).

  Definition kept_row (w : cview) (r : crow) : bool :=
    match nth_error cs (Z.to_nat (r_datum r)) with Some c => w c (r_pd_label r) | None => false end.

  Record cgood (w : cview) (e : ceval) : Prop := {
    cg_rows : Permutation (concat (ce_tables e)) (filter (kept_row w) (concat (writes_of cs)));
    cg_aligned : aligned r_datum (ce_tables e);
    cg_labels : forall (i : nat) l, has_number e l i <-> nth_error L i = Some l;
    cg_keys : Permutation (label_keys (ce_labels e)) (seq 0 (length L));
    cg_curve : exists inter, stable_sort_of (row_leb roc_sorting) (map project (concat (ce_tables e))) (concat inter)
                 /\ concat (ce_curve e) = roc_curve (label_keys (ce_labels e)) inter
  }.

  Hypothesis Hacc : Forall accepted cs.
  Hypothesis Hdist : Forall distinct_candidates cs.

  Lemma writes_row r : In r (concat (writes_of cs)) <-> exists d c, nth_error cs d = Some c /\ In r (canon_rows L d c).
  Proof.
    unfold writes_of. rewrite (W_writes cs Hacc). split.
    - intros H. apply in_concat in H. destruct H as (rows & Hin & Hr). apply In_nth_error in Hin.
      destruct Hin as (d & Hd). apply (W_inv cs) in Hd. destruct Hd as (c & Hc & ->). eauto.
    - intros (d & c & Hc & Hr). apply in_concat. exists (canon_rows L d c). split; [|exact Hr].
      eapply nth_error_In. apply (W_nth cs). exact Hc.
  Qed.

  Lemma kept_row_canon w d c r : nth_error cs d = Some c -> In r (canon_rows L d c) -> kept_row w r = w c (r_pd_label r).
  Proof.
    intros Hc Hr. apply canon_In in Hr. destruct Hr as (_ & E & _). unfold kept_row. rewrite E, Nat2Z.id, Hc. reflexivity.
  Qed.

  Lemma expresses_canon f p d c r : expresses cs f p -> nth_error cs d = Some c -> In r (canon_rows L d c) -> f r = p c (r_pd_label r).
  Proof.
    intros H Hc Hr. apply (H r d c); [apply writes_row; eauto|apply canon_In in Hr; tauto|exact Hc].
  Qed.

  Lemma row_labels d c : accepted c -> map r_pd_label (canon_rows L d c) = c_predictions c.
  Proof.
    intros [_ Hlen]. unfold canon_rows, mapi. rewrite map_mapi_from. cbn [canon_row r_pd_label].
    rewrite (mapi_from_const _ fst) by reflexivity. apply combine_fst. exact Hlen.
  Qed.
  Lemma existsb_map' {A B} (f : A -> B) (P : B -> bool) l : existsb P (map f l) = existsb (fun x => P (f x)) l.
  Proof. induction l as [|x t IH]; [reflexivity|]. cbn. rewrite IH. reflexivity. Qed.
  Lemma existsb_rows (F : String.string -> bool) d c : accepted c ->
    existsb (fun r => F (r_pd_label r)) (canon_rows L d c) = existsb F (c_predictions c).
  Proof. intros H. rewrite <- (row_labels d c H), existsb_map'. reflexivity. Qed.

  (* rows of the evaluator with the datum of a given row *)
  Lemma existsb_datum w all (P : crow -> bool) d c :
    (forall r, In r all <-> In r (concat (writes_of cs)) /\ kept_row w r = true) ->
    nth_error cs d = Some c -> (forall r, P r = true -> r_datum r = Z.of_nat d) ->
    existsb P all = existsb (fun r => w c (r_pd_label r) && P r) (canon_rows L d c).
  Proof.
    intros Hall Hc HP. apply eq_true_iff_eq. rewrite !existsb_exists. split.
    - intros (r & Hr & H). apply Hall in Hr. destruct Hr as [Hr Hk]. apply writes_row in Hr.
      destruct Hr as (d' & c' & Hc' & Hr). pose proof (HP r H) as Ed. pose proof Hr as Hr'. apply canon_In in Hr'.
      destruct Hr' as (_ & Ed' & _). assert (d' = d) by lia. subst d'. rewrite Hc in Hc'. injection Hc' as <-.
      exists r. split; [exact Hr|]. rewrite (kept_row_canon w d c r Hc Hr) in Hk. rewrite Hk, H. reflexivity.
    - intros (r & Hr & H). apply andb_true_iff in H. destruct H as [Hw H]. exists r. split; [|exact H].
      apply Hall. split; [apply writes_row; eauto|]. rewrite (kept_row_canon w d c r Hc Hr). exact Hw.
  Qed.

  Section Restrict.
    Variables w sel sg sp : cview.
    Variable all : list crow.
    Hypothesis Hall : forall r, In r all <-> In r (concat (writes_of cs)) /\ kept_row w r = true.
    Variable datums : crow -> bool.
    Variables gts pds : option (crow -> bool).
    Hypothesis Hsel : expresses cs datums sel.
    Hypothesis Hgt : opt_expresses cs gts sg.
    Hypothesis Hpd : opt_expresses cs pds sp.

    Lemma kept_restrict r : In r (concat (writes_of cs)) ->
      kept_row w r && kept datums gts pds all r = kept_row (crestrict w sel sg sp) r.
    Proof.
      intros Hin. apply writes_row in Hin. destruct Hin as (d & c & Hc & Hr).
      rewrite (kept_row_canon _ d c r Hc Hr), (kept_row_canon _ d c r Hc Hr).
      pose proof (acc_of cs Hacc d c Hc) as Ha. pose proof (nth_error_In _ _ Hc) as Hcin.
      assert (Hd : distinct_candidates c) by (rewrite Forall_forall in Hdist; auto).
      unfold kept, crestrict. rewrite (expresses_canon datums sel d c r Hsel Hc Hr).
      destruct (w c (r_pd_label r)) eqn:Ew; [|reflexivity]. destruct (sel c (r_pd_label r)) eqn:Es; [|reflexivity].
      cbn [andb]. f_equal.
      - destruct gts as [f|]; cbn [opt_expresses] in Hgt.
        + rewrite (existsb_datum w all _ d c Hall Hc).
          * rewrite <- (existsb_rows _ d c Ha). apply eq_true_iff_eq. rewrite !existsb_exists. split.
            -- intros (x & Hx & H). exists x. split; [exact Hx|]. rewrite !andb_true_iff in H.
               rewrite (expresses_canon datums sel d c x Hsel Hc Hx), (expresses_canon f sg d c x Hgt Hc Hx) in H.
               rewrite !andb_true_iff. tauto.
            -- intros (x & Hx & H). exists x. split; [exact Hx|]. rewrite !andb_true_iff in H.
               rewrite (expresses_canon datums sel d c x Hsel Hc Hx), (expresses_canon f sg d c x Hgt Hc Hx).
               rewrite !andb_true_iff. split; [tauto|]. split; [tauto|].
               unfold same_gt. apply canon_In in Hr, Hx. destruct Hr as (_ & E1 & _ & E2 & _), Hx as (_ & F1 & _ & F2 & _).
               rewrite E1, E2, F1, F2, !Z.eqb_refl. reflexivity.
          * intros x H. rewrite !andb_true_iff in H. destruct H as (_ & H). unfold same_gt in H. apply andb_true_iff in H.
            apply canon_In in Hr. destruct Hr as (_ & E1 & _). lia.
        + symmetry. apply existsb_exists. exists (r_pd_label r). split.
          * rewrite <- (row_labels d c Ha). apply in_map. exact Hr.
          * rewrite Ew, Es, Hgt. reflexivity.
      - destruct pds as [f|]; cbn [opt_expresses] in Hpd; [|symmetry; apply Hpd].
        rewrite <- (expresses_canon f sp d c r Hpd Hc Hr).
        rewrite (existsb_datum w all _ d c Hall Hc).
        + apply eq_true_iff_eq. rewrite existsb_exists. split.
          * intros (x & Hx & H). rewrite !andb_true_iff in H. destruct H as (_ & ((_ & Hf) & Hs)).
            assert (x = r).
            { apply (rows_label_inj cs d c); auto. unfold same_pd in Hs. apply andb_true_iff in Hs. destruct Hs as [_ Hs].
              assert (Ex := proj1 (proj2 (proj2 (proj2 (proj2 (canon_In _ _ _ _ Hx)))))).
              assert (Er := proj1 (proj2 (proj2 (proj2 (proj2 (canon_In _ _ _ _ Hr)))))).
              assert (Il := proj1 (proj2 (proj2 (proj2 (proj2 (proj2 (canon_In _ _ _ _ Hx))))))).
              assert (Hs' : (r_pd r =? idx L (r_pd_label x))%Z = true) by (rewrite <- Ex; apply Z.eqb_eq; apply Z.eqb_eq in Hs; congruence).
              rewrite (pd_eqb cs d c r (r_pd_label x) Hc Hr) in Hs' by (apply (labels_of_pd cs c _ Hcin Il)).
              apply String.eqb_eq in Hs'. congruence. }
            subst x. exact Hf.
          * intros Hf. exists r. split; [exact Hr|]. rewrite Ew, Hf.
            rewrite (expresses_canon datums sel d c r Hsel Hc Hr), Es. unfold same_pd. rewrite !Z.eqb_refl. reflexivity.
        + intros x H. rewrite !andb_true_iff in H. destruct H as (_ & H). unfold same_pd in H. apply andb_true_iff in H.
          apply canon_In in Hr. destruct Hr as (_ & E1 & _). lia.
    Qed.
  End Restrict.

  Lemma filter_filter' {A} (f g : A -> bool) l : filter f (filter g l) = filter (fun x => g x && f x) l.
  Proof. induction l as [|x t IH]; [reflexivity|]. cbn. destruct (g x); cbn; rewrite IH; reflexivity. Qed.
  Lemma filter_ext_In' {A} (f g : A -> bool) l : (forall x, In x l -> f x = g x) -> filter f l = filter g l.
  Proof.
    induction l as [|x t IH]; [reflexivity|]. intros H. cbn. rewrite (H x) by (left; reflexivity). rewrite IH by (intros; apply H; right; auto).
    reflexivity.
  Qed.
  Lemma filter_perm {A} (f : A -> bool) l l' : Permutation l l' -> Permutation (filter f l) (filter f l').
  Proof.
    induction 1; cbn; auto.
    - destruct (f x); auto.
    - destruct (f x), (f y); auto. apply perm_swap.
    - eapply perm_trans; eauto.
  Qed.

  Lemma restrict_rows w sel sg sp e datums gts pds : cgood w e ->
    expresses cs datums sel -> opt_expresses cs gts sg -> opt_expresses cs pds sp ->
    Permutation (concat (filter_tables datums gts pds (ce_tables e))) (filter (kept_row (crestrict w sel sg sp)) (concat (writes_of cs))).
  Proof.
    intros G H1 H2 H3. rewrite filter_tables_rows by apply G.
    eapply perm_trans; [apply filter_perm; apply (cg_rows _ _ G)|]. rewrite filter_filter'.
    rewrite (filter_ext_In' _ (kept_row (crestrict w sel sg sp))); [reflexivity|].
    intros r Hr. apply (kept_restrict w sel sg sp); auto. intros x. pose proof (cg_rows _ _ G) as Hp. split.
    - intros Hx. apply (Permutation_in _ Hp) in Hx. apply filter_In in Hx. exact Hx.
    - intros Hx. apply (Permutation_in _ (Permutation_sym Hp)). apply filter_In. exact Hx.
  Qed.

  Lemma kept_all : filter (kept_row all_kept) (concat (writes_of cs)) = concat (writes_of cs).
  Proof.
    rewrite (filter_ext_In' _ (fun _ => true)).
    - generalize (concat (writes_of cs)). clear. induction l as [|x t IH]; [reflexivity|]. cbn. rewrite IH. reflexivity.
    - intros r Hr. apply writes_row in Hr. destruct Hr as (d & c & Hc & Hr). rewrite (kept_row_canon _ d c r Hc Hr). reflexivity.
  Qed.

  Lemma stored_good tables curve inter : stored cs tables ->
    stable_sort_of (row_leb roc_sorting) (map project (concat tables)) (concat inter) ->
    concat curve = roc_curve (label_keys (extract_labels tables)) inter ->
    cgood all_kept (MkCE tables curve (extract_labels tables)).
  Proof.
    intros Hst HS HC. split; cbn [ce_tables ce_curve ce_labels].
    - rewrite kept_all. apply Hst.
    - apply Hst.
    - intros i l. unfold has_number. cbn [ce_labels]. apply extracted_get; auto.
    - apply extracted_keys; auto.
    - exists inter. auto.
  Qed.
End Good.

Lemma evaluator_accepted cs w e : cls_evaluator cs w e -> Forall accepted cs.
Proof. induction 1; auto; subst cs; apply data_accepted; assumption. Qed.

Lemma mem_done_open bs rb h b e : wellformed_calls h ->
  mb_finalize bs rb (fold_left (mb_call bs rb) h mb_init) = (b, Done e) -> still_open h /\ data_of h <> [].
Proof.
  intros Hw Hf. destruct (open_or_closed h) as [Ho|(p & q & E & Hp & Hd)].
  - split; [exact Ho|]. intros Hn. pose proof (m_finalize_empty bs rb h Hw Hn) as H. rewrite Hf in H. discriminate.
  - exfalso. assert (Hno : ~ still_open h) by (intros Ho; apply Hd; eapply Ho; exact E).
    pose proof (m_finalize_again bs rb h Hw Hno) as H. rewrite Hf in H. discriminate.
Qed.
Lemma file_done_open bs rpf rb h b e : batching_ok rb -> wellformed_calls h ->
  fb_finalize bs rpf rb (fold_left (fb_call bs rpf rb) h fb_init) = (b, Done e) -> still_open h /\ data_of h <> [].
Proof.
  intros Hb Hw Hf. destruct (open_or_closed h) as [Ho|(p & q & E & Hp & Hd)].
  - split; [exact Ho|]. intros Hn. pose proof (f_finalize_empty bs rpf rb h Hw Hn) as H. rewrite Hf in H. discriminate.
  - exfalso. assert (Hno : ~ still_open h) by (intros Ho; apply Hd; eapply Ho; exact E).
    pose proof (f_finalize_again bs rpf rb h Hb Hw Hno) as H. rewrite Hf in H. discriminate.
Qed.

Theorem evaluator_good cs w e : Forall distinct_candidates cs -> cls_evaluator cs w e -> cgood cs w e.
Proof.
  intros Hdist He. pose proof (evaluator_accepted cs w e He) as Hacc. induction He as [bs rb h b e Hw Hd Hf|bs rpf rb h b labels Hb Hw Hd Hf
    |w e bs rb datums gts pds sel sg sp e' He IH H1 H2 H3 Hf|w e bs rpf rb datums gts pds sel sg sp e' Hb He IH H1 H2 H3 Hf].
  - destruct (mem_done_open _ _ _ _ _ Hw Hf) as [Ho Hne]. rewrite (m_open bs rb h Hw Ho) in Hf. unfold m_open_state in Hf. rewrite Hd in *.
    destruct (mb_finalize_done cs Hacc Hne bs rb (labels_of cs) (length cs)) as (b' & e' & inter & E & Hst & El & HS & HC & _).
    rewrite E in Hf. injection Hf as <- <-. unfold ce_mem. rewrite El. apply (stored_good cs Hacc _ _ [inter]).
    + exact Hst.
    + cbn [concat]. rewrite !app_nil_r. exact HS.
    + cbn [concat]. rewrite app_nil_r, HC, El. reflexivity.
  - destruct (file_done_open _ _ _ _ _ _ Hb Hw Hf) as [Ho Hne]. rewrite (f_open bs rpf rb h Hw Ho) in Hf. unfold f_open_state in Hf. rewrite Hd in *.
    destruct (fb_finalize_done cs Hacc Hne bs rpf rb (labels_of cs) (length cs) Hb) as (b' & d' & inter & E & Hst & El & HS & _ & HC & _).
    rewrite E in Hf. injection Hf as <- <-. unfold ce_file. rewrite El. apply (stored_good cs Hacc _ _ inter).
    + apply (Hst (f_dir (fb_writer b'))). reflexivity.
    + exact HS.
    + rewrite HC, El. reflexivity.
  - pose proof (cls_filter_mem_spec bs rb e datums gts pds) as S. cbv zeta in S.
    pose proof (restrict_rows cs Hacc Hdist w sel sg sp e datums gts pds IH H1 H2 H3) as HR.
    destruct (concat (filter_tables datums gts pds (ce_tables e))) as [|x l] eqn:E; [rewrite S in Hf; discriminate|].
    destruct S as (e2 & inter & S & ST & SL & SS & SC). rewrite S in Hf. injection Hf as <-.
    split.
    + rewrite ST. cbn [concat]. rewrite app_nil_r. eapply perm_trans; [|exact HR]. symmetry. apply sort_perm.
    + rewrite ST. apply aligned_single.
    + intros i l'. unfold has_number. rewrite SL. apply (cg_labels _ _ _ IH).
    + rewrite SL. apply IH.
    + exists [inter]. rewrite ST, SC, SL. cbn [concat]. rewrite !app_nil_r. auto.
  - pose proof (cls_filter_file_spec bs rpf rb e datums gts pds Hb) as S. cbv zeta in S.
    pose proof (restrict_rows cs Hacc Hdist w sel sg sp e datums gts pds IH H1 H2 H3) as HR.
    pose proof (filter_tables_aligned datums gts pds _ (cg_aligned _ _ _ IH)) as HA.
    destruct (concat (filter_tables datums gts pds (ce_tables e))) as [|x l] eqn:E; [rewrite S in Hf; discriminate|].
    destruct S as (e2 & gs & inter & S & Sg & ST & SL & SS & SC). rewrite S in Hf. injection Hf as <-.
    split.
    + rewrite ST. eapply perm_trans; [|exact HR]. rewrite <- E, <- Sg, <- concat_map_concat. symmetry. apply concat_perm, sorted_tables_perm.
    + rewrite ST. eapply aligned_perm; [apply sorted_tables_perm|]. apply aligned_groups. rewrite Sg. exact HA.
    + intros i l'. unfold has_number. rewrite SL. apply (cg_labels _ _ _ IH).
    + rewrite SL. apply IH.
    + exists inter. rewrite SL. auto.
Qed.
