(* The examples of a classification evaluator, page by page. *)
From Verif Require Import Prelude PageSpec CacheModel CacheSpec PaginateProofs PageLemmas CacheProofs Counting ClsModel ClsSpec ClsLabelProofs ClsProofs
  ClsConfProofs ClsLemmas ClsMore ClsExampleProofs RocModel FlowModel FlowProofs FlowMore ClsFilterModel ClsFilterSpec ClsFilterProofs ClsFilterCounts
  DetFilterProofs DetLocalProofs ClsReportProofs ClsPageModel ClsPageSpec.
From Coq Require Import String.
Local Open Scope nat_scope.
Local Open Scope list_scope.

Lemma filter_map_swap {A B} (f : A -> B) (P : B -> bool) l : filter P (map f l) = map f (filter (fun x => P (f x)) l).
Proof. induction l as [|x t IH]; [reflexivity|]. cbn. destruct (P (f x)); cbn; rewrite IH; reflexivity. Qed.

Lemma seq_filter {A} (Q : A -> bool) (l : list A) :
  map (nth_error l) (filter (fun i => match nth_error l i with Some x => Q x | None => false end) (seq 0 (List.length l)))
  = map Some (filter Q l).
Proof.
  induction l as [|a t IH]; [reflexivity|]. cbn [List.length seq]. rewrite <- seq_shift. cbn [filter nth_error].
  rewrite filter_map_swap. cbn [nth_error]. destruct (Q a); cbn [map]; rewrite map_map; [f_equal; exact IH|exact IH].
Qed.

Lemma sorted_seq (P : nat -> bool) n : forall s, StronglySorted Z.lt (map Z.of_nat (filter P (seq s n))).
Proof.
  induction n as [|n IH]; intros s; [constructor|]. cbn [seq filter]. destruct (P s); [|apply IH]. cbn [map]. constructor; [apply IH|].
  apply Forall_forall. intros x Hx. apply in_map_iff in Hx. destruct Hx as (i & <- & Hi). apply filter_In in Hi. destruct Hi as [Hi _].
  apply in_seq in Hi. lia.
Qed.

Lemma sorted_strict l : StronglySorted (leP Z.leb) l -> NoDup l -> StronglySorted Z.lt l.
Proof.
  induction 1 as [|a t Hs IH Hf]; intros Hn; [constructor|]. inversion Hn as [|? ? Ha Hn']; subst. constructor; [auto|].
  rewrite Forall_forall in *. intros x Hx. specialize (Hf x Hx). unfold leP in Hf. apply Z.leb_le in Hf. assert (a <> x) by congruence. lia.
Qed.
Lemma unique_ids_sorted idc t : unique_ids idc t = sorted_unique idc t.
Proof.
  apply sorted_lt_eq.
  - unfold unique_ids. apply sorted_strict; [apply isort_sorted; intros; lia|apply isort_NoDup, NoDup_nodup].
  - apply sorted_unique_lt.
  - intros x. rewrite sorted_unique_In. unfold unique_ids. rewrite isort_In_iff, nodup_In. reflexivity.
Qed.

(* the second components of sorted pairs with one first component *)
Lemma pairs_sorted (d : Z) l : NoDup l -> (forall k, In k l -> fst k = d) -> StronglySorted Z.lt (map snd (isort zz_leb l)).
Proof.
  intros Hn Hd. assert (Hs : StronglySorted (leP zz_leb) (isort zz_leb l)).
  { apply isort_sorted; [intros; apply lex_leb_total|intros a b c; apply lex_leb_trans]. }
  apply (isort_NoDup zz_leb) in Hn. assert (Hd' : forall k, In k (isort zz_leb l) -> fst k = d) by (intros k Hk; apply Hd, (isort_In_iff zz_leb), Hk).
  clear Hd. induction Hs as [|a t Hs IH Hf]; [constructor|]. inversion Hn as [|? ? Ha Hn']; subst. cbn. constructor.
  - apply IH; auto. intros k Hk. apply Hd'. right. exact Hk.
  - apply Forall_forall. intros x Hx. apply in_map_iff in Hx. destruct Hx as (b & <- & Hb). rewrite Forall_forall in Hf. specialize (Hf b Hb).
    pose proof (Hd' a (or_introl eq_refl)) as Ea. pose proof (Hd' b (or_intror Hb)) as Eb. destruct a as [a1 a2], b as [b1 b2]. cbn in *. subst a1 b1.
    unfold leP, zz_leb in Hf. cbn in Hf. rewrite Z.ltb_irrefl, Z.eqb_refl in Hf. cbn in Hf.
    assert (a2 <> b2) by congruence. destruct (Z.ltb_spec a2 b2); [lia|]. cbn in Hf. destruct (Z.eqb_spec a2 b2); [contradiction|discriminate].
Qed.

Lemma name_in_In x l : name_in x l = true <-> In x l.
Proof.
  unfold name_in. rewrite existsb_exists. split.
  - intros (y & Hy & E). assert (x = y); [|subst; exact Hy]. destruct x as [a|], y as [b|]; cbn in E; try discriminate; [|reflexivity].
    apply String.eqb_eq in E. congruence.
  - intros H. exists x. split; [exact H|]. destruct x; cbn; [apply String.eqb_refl|reflexivity].
Qed.

Section One.
  Variable cs : list classification.
  Hypothesis Hacc : Forall accepted cs.
  Hypothesis Hfew : few_labels cs.
  Variable labels : dict.
  Local Notation L := (labels_of cs).
  Hypothesis Hlab : forall (i : nat) l, dict_get labels (Z.of_nat i) = Some l <-> nth_error L i = Some l.
  Variables (hm : bool) (pass : Z -> bool) (m : crow -> bool).
  Hypothesis Hm : forall r, m r = pass (r_score r) && (if hm then r_winner r else true).
  Variable u : cview.
  Variables (d : nat) (c : classification) (t : list crow).
  Hypothesis Hc : nth_error cs d = Some c.
  Hypothesis Ht : forall r, In r t /\ r_datum r = Z.of_nat d <-> In r (canon_rows L d c) /\ u c (r_pd_label r) = true.
  Hypothesis Hvis : exists r, In r t /\ r_datum r = Z.of_nat d.
  Local Notation mine := (fun r => (r_datum r =? Z.of_nat d)%Z).
  Local Notation gi := (idx L (c_groundtruth c)).
  Local Notation pos := (vpositives u hm pass c).

  Lemma lab_idx l : In l L -> dict_get labels (idx L l) = Some l.
  Proof.
    intros H. pose proof (idx_range L l H) as Hr. pose proof (idx_nth L l H) as Hn.
    rewrite <- (Z2Nat.id (idx L l)) by lia. apply Hlab. exact Hn.
  Qed.
  Lemma gt_in : In (c_groundtruth c) L.
  Proof. apply labels_of_gt. eapply nth_error_In; eauto. Qed.

  Lemma one_row r : In r t -> mine r = true -> In r (canon_rows L d c) /\ u c (r_pd_label r) = true.
  Proof. intros Hr H. apply Ht. split; [exact Hr|]. apply Z.eqb_eq. exact H. Qed.
  Lemma row_one r : In r (canon_rows L d c) -> u c (r_pd_label r) = true -> In r t /\ mine r = true.
  Proof. intros Hr H. destruct (proj2 (Ht r) (conj Hr H)) as [H1 H2]. split; [exact H1|]. apply Z.eqb_eq. exact H2. Qed.

  Lemma pos_row l : (exists r, In r t /\ mine r = true /\ m r = true /\ r_pd_label r = l) <-> In l pos.
  Proof.
    unfold vpositives. rewrite filter_In, <- (positive_row cs Hacc hm pass m Hm d c l Hc). split.
    - intros (r & Hr & Hd & Hmr & E). destruct (one_row r Hr Hd) as [H1 H2]. rewrite E in H2. split; [eauto|exact H2].
    - intros ((r & H1 & H2 & E) & Hu). rewrite <- E in Hu. destruct (row_one r H1 Hu). exists r. auto.
  Qed.
  Lemma pos_label l : In l pos -> In l L.
  Proof.
    intros H. unfold vpositives in H. apply filter_In in H. destruct H as [H _]. apply (positives_labels hm pass cs c); auto.
    eapply nth_error_In; eauto.
  Qed.

  Lemma row_tp r : In r t -> mine r = true -> pc_tp m r = m r && String.eqb (c_groundtruth c) (r_pd_label r).
  Proof.
    intros Hr Hd. destruct (one_row r Hr Hd) as [Hcan _]. destruct (row_match cs Hfew d c r Hc Hcan) as (Em & _). unfold m_match in Em.
    unfold pc_tp. rewrite Em. apply andb_comm.
  Qed.
  Lemma row_mis r : In r t -> mine r = true -> pc_misclf m r = m r && negb (String.eqb (c_groundtruth c) (r_pd_label r)).
  Proof.
    intros Hr Hd. destruct (one_row r Hr Hd) as [Hcan _]. destruct (row_match cs Hfew d c r Hc Hcan) as (Em & _). unfold m_match in Em.
    unfold pc_misclf. rewrite Em. apply andb_comm.
  Qed.
  Lemma row_ids r : In r t -> mine r = true -> r_datum r = Z.of_nat d /\ r_gt r = gi /\ r_pd r = idx L (r_pd_label r) /\ r_uid r = c_uid c.
  Proof.
    intros Hr Hd. destruct (one_row r Hr Hd) as [Hcan _]. pose proof (canon_In _ _ _ _ Hcan) as (Eu & Ed & _ & Eg & Ep & _). auto.
  Qed.

  Lemma tp_keys : isort zzz_leb (dkeys zzz_dec key3 (fun r => pc_tp m r && mine r) t)
    = if smem (c_groundtruth c) pos then [(Z.of_nat d, gi, gi)] else [].
  Proof.
    rewrite (dkeys_const zzz_dec key3 _ t (Z.of_nat d, gi, gi)).
    - assert (E : existsb (fun r => pc_tp m r && mine r) t = smem (c_groundtruth c) pos).
      { apply eq_true_iff_eq. rewrite existsb_exists, smem_In, <- pos_row. split.
        - intros (r & Hr & H). rewrite andb_true_iff in H. destruct H as [H Hd]. rewrite (row_tp r Hr Hd), andb_true_iff, String.eqb_eq in H.
          exists r. intuition.
        - intros (r & Hr & Hd & Hmr & E). exists r. split; [exact Hr|]. rewrite (row_tp r Hr Hd), Hmr, E, String.eqb_refl, Hd. reflexivity. }
      rewrite E. destruct (smem _ _); reflexivity.
    - intros r Hr H. rewrite andb_true_iff in H. destruct H as [H Hd]. rewrite (row_tp r Hr Hd), andb_true_iff, String.eqb_eq in H. destruct H as [_ H].
      destruct (row_ids r Hr Hd) as (E1 & E2 & E3 & _). unfold key3. rewrite E1, E2, E3, <- H. reflexivity.
  Qed.

  Lemma fn_keys : dkeys zz_dec key2 (fun r => (pc_misclf m r || pc_unmatched m t r) && mine r) t
    = if existsb (fun r => (pc_misclf m r || pc_unmatched m t r) && mine r) t then [(Z.of_nat d, gi)] else [].
  Proof.
    apply dkeys_const. intros r Hr H. rewrite andb_true_iff in H. destruct H as [_ Hd]. destruct (row_ids r Hr Hd) as (E1 & E2 & _).
    unfold key2. rewrite E1, E2. reflexivity.
  Qed.
  Lemma fn_exists : smem (c_groundtruth c) pos = false -> existsb (fun r => (pc_misclf m r || pc_unmatched m t r) && mine r) t = true.
  Proof.
    intros Hs. apply existsb_exists. destruct pos as [|p ps] eqn:Ep.
    - destruct Hvis as (r & Hr & Hd). apply Z.eqb_eq in Hd. exists r. split; [exact Hr|]. rewrite Hd, andb_true_r. apply orb_true_iff. right.
      unfold pc_unmatched. apply negb_true_iff, not_true_iff_false. rewrite existsb_exists. intros (x & Hx & H). rewrite andb_true_iff in H.
      destruct H as [Hmx Hsg]. unfold same_gt in Hsg. rewrite andb_true_iff in Hsg.
      assert (Hdx : mine x = true) by lia. assert (Hp : In (r_pd_label x) pos) by (apply pos_row; exists x; auto). rewrite Ep in Hp. destruct Hp.
    - assert (Hp : In p pos) by (rewrite Ep; left; reflexivity). apply pos_row in Hp. destruct Hp as (r & Hr & Hd & Hmr & E).
      exists r. split; [exact Hr|]. rewrite (row_mis r Hr Hd), Hmr, E, Hd. cbn [andb]. rewrite andb_true_r. apply orb_true_iff. left.
      apply negb_true_iff, String.eqb_neq. intros Eq. unfold smem in Hs. cbn in Hs. rewrite Eq, String.eqb_refl in Hs. discriminate.
  Qed.

  Local Notation Q := (fun l => smem l pos && negb (String.eqb l (c_groundtruth c))).
  Local Notation fpk := (dkeys zz_dec (fun r => (r_datum r, r_pd r)) (fun r => pc_misclf m r && mine r) t).

  Lemma fp_ids : map snd (isort zz_leb fpk)
    = map Z.of_nat (filter (fun i => match nth_error L i with Some x => Q x | None => false end) (seq 0 (List.length L))).
  Proof.
    apply sorted_lt_eq.
    - apply (pairs_sorted (Z.of_nat d)); [apply dkeys_NoDup|]. intros k Hk. apply dkeys_In in Hk. destruct Hk as (r & Hr & H & <-).
      rewrite andb_true_iff in H. destruct H as [_ H]. cbn. lia.
    - apply sorted_seq.
    - intros x. rewrite !in_map_iff. split.
      + intros (k & <- & Hk). rewrite isort_In_iff, dkeys_In in Hk. destruct Hk as (r & Hr & H & <-). rewrite andb_true_iff in H. destruct H as [H Hd].
        rewrite (row_mis r Hr Hd), andb_true_iff in H. destruct H as [Hmr Hne]. destruct (row_ids r Hr Hd) as (_ & _ & E3 & _).
        assert (Hp : In (r_pd_label r) pos) by (apply pos_row; exists r; auto). pose proof (pos_label _ Hp) as Hl.
        pose proof (idx_range L _ Hl) as Hrg. pose proof (idx_nth L _ Hl) as Hn. exists (Z.to_nat (idx L (r_pd_label r))). cbn [snd]. split; [lia|].
        apply filter_In. split; [apply in_seq; lia|]. rewrite Hn. rewrite (proj2 (smem_In _ _) Hp), String.eqb_sym, Hne. reflexivity.
      + intros (i & <- & Hi). apply filter_In in Hi. destruct Hi as [Hi HQ]. destruct (nth_error L i) as [l|] eqn:En; [|discriminate].
        rewrite andb_true_iff, smem_In, negb_true_iff, String.eqb_neq in HQ. destruct HQ as [Hp Hne]. pose proof (pos_label _ Hp) as Hl.
        apply pos_row in Hp. destruct Hp as (r & Hr & Hd & Hmr & E). destruct (row_ids r Hr Hd) as (E1 & _ & E3 & _).
        exists (r_datum r, r_pd r). cbn [snd]. split.
        * rewrite E3, E. apply (idx_of_nth L l i); [apply labels_of_NoDup|exact En].
        * rewrite isort_In_iff, dkeys_In. exists r. split; [exact Hr|]. split; [|reflexivity]. rewrite (row_mis r Hr Hd), Hmr, E, Hd. cbn [andb].
          rewrite andb_true_r. apply negb_true_iff, String.eqb_neq. congruence.
  Qed.

  Lemma fp_names : map (fun k => dict_get labels (snd k)) (isort zz_leb fpk) = map Some (filter Q L).
  Proof.
    rewrite <- (map_map snd (dict_get labels)), fp_ids, map_map, <- (seq_filter Q L). apply map_ext_in. intros i Hi.
    apply filter_In in Hi. destruct Hi as [_ Hi]. destruct (nth_error L i) as [l|] eqn:En; [|discriminate]. apply Hlab. exact En.
  Qed.

  Lemma uid_one : uid_of t (Z.of_nat d) = Some (c_uid c).
  Proof.
    unfold uid_of. destruct (find_first (fun x => (r_datum x =? Z.of_nat d)%Z) t) as (x & -> & Hx & E).
    { destruct Hvis as (r & Hr & Hd). exists r. split; [exact Hr|lia]. }
    destruct (row_ids x Hx E) as (_ & _ & _ & Eu). cbn. rewrite Eu. reflexivity.
  Qed.

  Lemma one_meaning thr : named_examples labels m t (Z.of_nat d) thr = listed cs pos thr c.
  Proof.
    unfold named_examples, listed. rewrite tp_keys, fn_keys, fp_names, uid_one. pose proof (lab_idx _ gt_in) as Hg. f_equal.
    - destruct (smem (c_groundtruth c) pos); [|reflexivity]. cbn [map fst snd]. rewrite Hg. reflexivity.
    - destruct (smem (c_groundtruth c) pos) eqn:Es.
      + destruct (existsb _ t); [|reflexivity]. cbn. rewrite Hg. cbn. rewrite String.eqb_refl. reflexivity.
      + rewrite (fn_exists Es). cbn. rewrite Hg. reflexivity.
    - apply filter_all. intros x Hx. apply negb_true_iff, not_true_iff_false. rewrite name_in_In. intros Hin.
      destruct (smem (c_groundtruth c) pos); [|destruct Hin]. cbn [map fst snd] in Hin. rewrite Hg in Hin. destruct Hin as [<-|[]].
      apply in_map_iff in Hx. destruct Hx as (l & E & Hl). injection E as ->. apply filter_In in Hl. destruct Hl as [_ Hl].
      rewrite String.eqb_refl, andb_false_r in Hl. discriminate.
  Qed.
End One.

(* ------------------------------------------------------------------ *)
(** * Tables in datum order *)

Lemma writes_in_order cs : Forall accepted cs -> in_order r_datum (writes_of cs).
Proof.
  intros Hacc. unfold writes_of. rewrite (W_writes cs Hacc).
  assert (H : forall i j a b ti tj, nth_error (mapi (canon_rows (labels_of cs)) cs) i = Some ti -> nth_error (mapi (canon_rows (labels_of cs)) cs) j = Some tj -> i < j -> In a ti -> In b tj -> (r_datum a < r_datum b)%Z).
  { intros i j a b ti tj Hi Hj Hij Ha Hb. apply (W_inv cs) in Hi, Hj. destruct Hi as (ci & _ & ->), Hj as (cj & _ & ->).
    apply canon_In in Ha, Hb. destruct Ha as (_ & Ea & _), Hb as (_ & Eb & _). lia. }
  revert H. generalize (mapi (canon_rows (labels_of cs)) cs) as ts. induction ts as [|t ts IH]; intros H; constructor.
  - apply IH. intros i j a b ti tj Hi Hj Hij. apply (H (S i) (S j)); auto. lia.
  - apply Forall_forall. intros t' Ht' a b Ha Hb. apply In_nth_error in Ht'. destruct Ht' as (j & Hj). apply (H 0 (S j) a b t t'); auto. lia.
Qed.

Lemma filter_table_sub gts pds t a : In a (filter_table gts pds t) -> In a t.
Proof. unfold filter_table. intros H. apply filter_In in H. tauto. Qed.

Local Notation csort := (table_sort_by cls_sorting).
Lemma csort_In t a : In a (csort t) -> In a t.
Proof. intros H. apply (Permutation_in a (Permutation_sym (sort_perm cls_sorting t))). exact H. Qed.

Theorem evaluator_in_order cs w e : cls_evaluator cs w e -> in_order r_datum (ce_tables e).
Proof.
  intros He. pose proof (evaluator_accepted cs w e He) as Hacc. induction He as [bs rb h b e Hw Hd Hf|bs rpf rb h b labels Hb Hw Hd Hf
    |w e bs rb datums gts pds sel sg sp e' He IH H1 H2 H3 Hf|w e bs rpf rb datums gts pds sel sg sp e' Hb He IH H1 H2 H3 Hf].
  - apply in_order_single.
  - destruct (file_done_open _ _ _ _ _ _ Hb Hw Hf) as [Ho Hne]. rewrite (f_open bs rpf rb h Hw Ho) in Hf. unfold f_open_state in Hf. rewrite Hd in *.
    destruct (file_pipe_ops csort bs rpf (row_ops (writes_of cs))) as (gs & Hc & Htb & Hlist).
    rewrite batches_rows_ops in Hc by (apply writes_nonempty; exact Hacc).
    assert (E : ce_tables (ce_file b labels) = map csort (map (@List.concat crow) gs)).
    { unfold ce_file. cbn [ce_tables]. unfold fe_tables. revert Hf. unfold fb_finalize. cbn [fb_writer fb_labels fb_count fb_inter fb_curve].
      destruct (Nat.eqb _ 0); [discriminate|]. destruct (Nat.ltb 0 _); [discriminate|].
      destruct (sort_ops _ _ _ _ _ _ _) as [ops|]; [|discriminate]. intros Hf. injection Hf as <- _. cbn [fb_writer]. apply Hlist. reflexivity. }
    rewrite E. apply in_order_map; [intros; apply csort_In; assumption|]. apply in_order_groups. rewrite Hc. apply writes_in_order. exact Hacc.
  - pose proof (cls_filter_mem_spec bs rb e datums gts pds) as S. cbv zeta in S.
    destruct (List.concat (filter_tables datums gts pds (ce_tables e))) as [|x l] eqn:E; [rewrite S in Hf; discriminate|].
    destruct S as (e2 & inter & S & ST & SL & SS & SC). rewrite S in Hf. injection Hf as <-. rewrite ST. apply in_order_single.
  - pose proof (cls_filter_file_spec bs rpf rb e datums gts pds Hb) as S. cbv zeta in S.
    destruct (List.concat (filter_tables datums gts pds (ce_tables e))) as [|x l] eqn:E; [rewrite S in Hf; discriminate|].
    destruct S as (e2 & gs & inter & S & Sg & ST & SL & SS & SC). rewrite S in Hf. injection Hf as <-. rewrite ST.
    apply in_order_map; [intros; apply csort_In; assumption|]. apply in_order_groups. rewrite Sg. unfold filter_tables.
    apply in_order_map; [|apply IH; exact Hacc]. intros t a H. apply filter_table_sub in H. apply filter_In in H. tauto.
Qed.

(* ------------------------------------------------------------------ *)
(** * The examples of an evaluator *)

Section Whole.
  Variable cs : list classification.
  Variables (w : cview) (e : ceval) (datums : crow -> bool) (sel : cview).
  Hypothesis He : cls_evaluator cs w e.
  Hypothesis Hfew : few_labels cs.
  Hypothesis Hdist : Forall distinct_candidates cs.
  Hypothesis Hsel : expresses cs datums sel.
  Local Notation L := (labels_of cs).
  Local Notation u := (cselect w sel).
  Let Hacc : Forall accepted cs := evaluator_accepted cs w e He.
  Let G : cgood cs w e := evaluator_good cs w e Hdist He.
  Let Hord : in_order r_datum (ce_tables e) := evaluator_in_order cs w e He.

  (* the stored rows of a datum that the expression selects *)
  Lemma whole_row r : In r (List.concat (map (filter datums) (ce_tables e))) <->
    exists d c, nth_error cs d = Some c /\ In r (canon_rows L d c) /\ u c (r_pd_label r) = true.
  Proof.
    assert (E : In r (List.concat (map (filter datums) (ce_tables e))) <-> In r (List.concat (ce_tables e)) /\ datums r = true).
    { rewrite !in_concat. split.
      - intros (t & Ht & Hr). apply in_map_iff in Ht. destruct Ht as (t0 & <- & Ht0). apply filter_In in Hr. destruct Hr. split; [eauto|assumption].
      - intros ((t & Ht & Hr) & H). exists (filter datums t). split; [apply in_map; exact Ht|]. apply filter_In. auto. }
    rewrite E. clear E.
    assert (E : In r (List.concat (ce_tables e)) <-> In r (List.concat (writes_of cs)) /\ kept_row cs w r = true).
    { rewrite <- filter_In. split; apply Permutation_in; [|symmetry]; apply (cg_rows cs w e G). }
    rewrite E, (writes_row cs Hacc). clear E. split.
    - intros (((d & c & Hc & Hr) & Hk) & Hd). exists d, c. split; [exact Hc|]. split; [exact Hr|].
      rewrite (kept_row_canon cs w d c r Hc Hr) in Hk. rewrite (expresses_canon cs Hacc datums sel d c r Hsel Hc Hr) in Hd.
      unfold cselect. rewrite Hk, Hd. reflexivity.
    - intros (d & c & Hc & Hr & Hu). unfold cselect in Hu. apply andb_true_iff in Hu. destruct Hu as [Hw Hs].
      rewrite (kept_row_canon cs w d c r Hc Hr), (expresses_canon cs Hacc datums sel d c r Hsel Hc Hr). split; [split; [exists d, c; auto|exact Hw]|exact Hs].
  Qed.

  Lemma whole_keys : List.concat (map (sorted_unique r_datum) (map (filter datums) (ce_tables e)))
    = map Z.of_nat (filter (fun d => match nth_error cs d with Some c => visible u c | None => false end) (seq 0 (List.length cs))).
  Proof.
    apply sorted_lt_eq.
    - apply in_order_keys, in_order_map; [|exact Hord]. intros t a H. apply filter_In in H. tauto.
    - apply sorted_seq.
    - intros x. rewrite keys_In, in_map_iff. split.
      + intros (r & Hr & <-). apply whole_row in Hr. destruct Hr as (d & c & Hc & Hr & Hu). pose proof (canon_In _ _ _ _ Hr) as (_ & Ed & _).
        exists d. split; [auto|]. apply filter_In. split; [apply in_seq; assert (d < List.length cs) by (apply nth_error_Some; congruence); lia|].
        rewrite Hc. unfold visible. apply existsb_exists. exists (r_pd_label r). split; [|exact Hu].
        rewrite <- (row_labels cs d c (acc_of cs Hacc d c Hc)). apply in_map. exact Hr.
      + intros (d & <- & Hd). apply filter_In in Hd. destruct Hd as [_ Hd]. destruct (nth_error cs d) as [c|] eqn:Hc; [|discriminate].
        unfold visible in Hd. apply existsb_exists in Hd. destruct Hd as (l & Hl & Hu).
        rewrite <- (row_labels cs d c (acc_of cs Hacc d c Hc)) in Hl. apply in_map_iff in Hl. destruct Hl as (r & <- & Hr).
        exists r. split; [|apply canon_In in Hr; tauto]. apply whole_row. eauto.
  Qed.

  Variables (tol9 : Z) (hm : bool) (thrs : list Z) (limit : option nat) (offset : nat).

  Lemma masks_entries t d c : nth_error cs d = Some c ->
    (forall r, In r t /\ r_datum r = Z.of_nat d <-> In r (canon_rows L d c) /\ u c (r_pd_label r) = true) ->
    (exists r, In r t /\ r_datum r = Z.of_nat d) ->
    map (fun mt => named_examples (ce_labels e) (fst mt) t (Z.of_nat d) (snd mt)) (combine (masks tol9 hm thrs) thrs)
    = datum_entries cs u tol9 hm thrs c.
  Proof.
    intros Hc Ht Hv. unfold datum_entries. apply nth_error_ext. intros k. rewrite !nth_error_map.
    destruct (nth_error thrs k) as [thr|] eqn:Ek.
    - destruct (masks_nth tol9 hm thrs k thr Ek) as (m & Em & Hm).
      rewrite (nth_error_combine _ _ _ _ _ Em Ek).
      assert (Es : nth_error (seq 0 (List.length thrs)) k = Some k).
      { assert (k < List.length thrs) by (apply nth_error_Some; congruence). apply nth_error_seq_lt. exact H. }
      rewrite (nth_error_combine _ _ _ _ _ Es Ek). cbn [option_map fst snd]. f_equal.
      apply (one_meaning cs Hacc Hfew (ce_labels e) (cg_labels cs w e G) hm _ m Hm u d c t Hc Ht Hv).
    - assert (Hk : List.length thrs <= k) by (apply nth_error_None; exact Ek).
      rewrite !(proj2 (nth_error_None _ _)); [reflexivity| |]; rewrite combine_length; lia.
  Qed.

  Theorem cls_examples_page : thrs <> [] ->
    cls_examples tol9 hm thrs datums limit offset e
    = Some (List.concat (map (datum_entries cs u tol9 hm thrs) (page_of limit offset (filter (visible u) cs)))).
  Proof.
    intros Hne. unfold cls_examples. destruct thrs as [|th0 ths] eqn:Ethr; [congruence|]. rewrite <- Ethr. clear Hne. f_equal.
    set (ts := paginate_index r_datum datums limit offset (ce_tables e)).
    set (entry := fun d : nat => match nth_error cs d with Some c => datum_entries cs u tol9 hm thrs c | None => [] end).
    transitivity (List.concat (map entry (page_of limit offset
      (filter (fun d => match nth_error cs d with Some c => visible u c | None => false end) (seq 0 (List.length cs)))))).
    - assert (E : List.concat (map (fun z => entry (Z.to_nat z)) (List.concat (map (sorted_unique r_datum) ts)))
                = List.concat (map entry (page_of limit offset
                    (filter (fun d => match nth_error cs d with Some c => visible u c | None => false end) (seq 0 (List.length cs)))))).
      { unfold ts. rewrite paginate_keys, whole_keys, <- page_map, map_map. f_equal. apply map_ext. intros d. rewrite Nat2Z.id. reflexivity. }
      rewrite <- E. clear E.
      assert (H : forall t', In t' ts -> forall z, In z (unique_ids r_datum t') ->
        map (fun mt => named_examples (ce_labels e) (fst mt) t' z (snd mt)) (combine (masks tol9 hm thrs) thrs) = entry (Z.to_nat z)).
      { intros t' Ht' z Hz. unfold ts in Ht'. apply paginate_tables in Ht'. destruct Ht' as (t & P & Ht & ->).
        rewrite unique_ids_sorted, sorted_unique_In, in_map_iff in Hz. destruct Hz as (r & Ez & Hr). apply filter_In in Hr. destruct Hr as [Hr HP].
        assert (Hr' : In r (List.concat (map (filter datums) (ce_tables e)))).
        { apply in_concat. exists (filter datums t). split; [apply in_map; exact Ht|exact Hr]. }
        apply whole_row in Hr'. destruct Hr' as (d & c & Hc & Hcan & Hu). pose proof (canon_In _ _ _ _ Hcan) as (_ & Ed & _).
        assert (Ezd : z = Z.of_nat d) by lia. rewrite Ezd. unfold entry. rewrite Nat2Z.id, Hc.
        assert (HPd : P (Z.of_nat d) = true) by (rewrite Ed in HP; exact HP).
        apply masks_entries; [exact Hc| |].
        - intros x. split.
          + intros [Hx Ex]. apply filter_In in Hx. destruct Hx as [Hx _].
            assert (Hx' : In x (List.concat (map (filter datums) (ce_tables e)))).
            { apply in_concat. exists (filter datums t). split; [apply in_map; exact Ht|exact Hx]. }
            apply whole_row in Hx'. destruct Hx' as (d' & c' & Hc' & Hcan' & Hu'). pose proof (canon_In _ _ _ _ Hcan') as (_ & Ed' & _).
            assert (d' = d) by lia. subst d'. assert (c' = c) by congruence. subst c'. auto.
          + intros [Hcx Hux]. pose proof (canon_In _ _ _ _ Hcx) as (_ & Ex & _). split; [|exact Ex].
            apply filter_In. split; [|rewrite Ex; exact HPd].
            assert (Hx' : In x (List.concat (map (filter datums) (ce_tables e)))) by (apply whole_row; eauto).
            apply in_concat in Hx'. destruct Hx' as (t2 & Ht2 & Hx). apply in_map_iff in Ht2. destruct Ht2 as (t0 & <- & Ht0).
            apply In_nth_error in Ht, Ht0. destruct Ht as (i & Hi), Ht0 as (j & Hj). apply filter_In in Hr. destruct Hr as [Hr _].
            assert (Hx0 : In x t0) by (apply filter_In in Hx; tauto).
            assert (i = j) by (apply (cg_aligned cs w e G i j t t0 r x); auto; lia). subst j. assert (t0 = t) by congruence. subst t0. exact Hx.
        - exists r. split; [|lia]. apply filter_In. split; [exact Hr|]. rewrite Ed. exact HPd. }
      revert H. generalize ts. clear. induction ts as [|t ts IH]; intros H; [reflexivity|]. cbn [map List.concat]. rewrite map_app, concat_app. f_equal.
      + rewrite <- unique_ids_sorted. f_equal. apply map_ext_in. intros z Hz. apply (H t); [left; reflexivity|exact Hz].
      + apply IH. intros t' Ht' z Hz. apply (H t'); [right; exact Ht'|exact Hz].
    - set (fs := fun o : option classification => match o with Some c => datum_entries cs u tol9 hm thrs c | None => [] end).
      set (ids := filter (fun d => match nth_error cs d with Some c => visible u c | None => false end) (seq 0 (List.length cs))).
      transitivity (List.concat (map fs (page_of limit offset (map (nth_error cs) ids)))).
      + rewrite <- page_map, map_map. reflexivity.
      + unfold ids. rewrite (seq_filter (visible u) cs), <- page_map, map_map. reflexivity.
  Qed.
End Whole.

(* pages of equal size, one after the other, list every datum *)
Theorem cls_examples_pages cs w e datums sel tol9 hm thrs n k :
  cls_evaluator cs w e -> few_labels cs -> Forall distinct_candidates cs -> expresses cs datums sel -> thrs <> [] ->
  List.length (filter (visible (cselect w sel)) cs) <= k * S n ->
  List.concat (map (fun i => match cls_examples tol9 hm thrs datums (Some (S n)) (i * S n) e with Some l => l | None => [] end) (seq 0 k))
  = match cls_examples tol9 hm thrs datums None 0 e with Some l => l | None => [] end.
Proof.
  intros He Hf Hd Hs Hn Hk. rewrite (cls_examples_page cs w e datums sel He Hf Hd Hs tol9 hm thrs None 0 Hn).
  rewrite (map_ext _ (fun i => List.concat (map (datum_entries cs (cselect w sel) tol9 hm thrs)
    (page_of (Some (S n)) (i * S n) (filter (visible (cselect w sel)) cs))))).
  2: { intros i. rewrite (cls_examples_page cs w e datums sel He Hf Hd Hs tol9 hm thrs (Some (S n)) (i * S n) Hn). reflexivity. }
  set (l := filter (visible (cselect w sel)) cs) in *. change (page_of None 0 l) with l.
  assert (E : l = List.concat (map (fun i => page_of (Some (S n)) (i * S n) l) (seq 0 k))) by (rewrite pages_concat, firstn_all2 by exact Hk; reflexivity).
  transitivity (List.concat (map (datum_entries cs (cselect w sel) tol9 hm thrs) (List.concat (map (fun i => page_of (Some (S n)) (i * S n) l) (seq 0 k)))));
    [|rewrite <- E; reflexivity]. clear E.
  generalize (seq 0 k). clear. induction l0 as [|i t IH]; [reflexivity|]. cbn [map List.concat]. rewrite map_app, concat_app. f_equal. exact IH.
Qed.
