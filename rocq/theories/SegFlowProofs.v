(* Evaluators obtained by finalizing, loading and filtering. *)
From Verif Require Import Prelude Counting CacheModel CacheSpec CacheProofs ClsModel ClsSpec ClsLabelProofs ClsProofs FlowModel FlowProofs DetFlowModel DetFlowProofs Pipeline SegModel SegSpec SegPixelProofs SegProofs SegStoreProofs SegLabelProofs.
From Coq Require Import QArith String.
Local Open Scope nat_scope.
Local Open Scope list_scope.

Lemma fold_mem_rops {A} bs (ws : list (list A)) s : fold_left (mem_write_rows bs) ws s = fold_left (mem_step bs) (rops ws) s.
Proof. revert s. induction ws as [|w ws IH]; intros s; [reflexivity|]. cbn. apply IH. Qed.
Lemma fold_file_rops {A} bs rpf (ws : list (list A)) s : fold_left (file_write_rows bs rpf) ws s = fold_left (file_step bs rpf) (rops ws) s.
Proof. revert s. induction ws as [|w ws IH]; intros s; [reflexivity|]. cbn. apply IH. Qed.

Definition sops_ok (ss : list segmentation) (ops : list (wop srow)) : Prop :=
  forallb (fun o => negb (is_table o)) ops = true /\ batches ops = writes_from [] 0 ss.

Lemma sops_add ss ss' ops : sops_ok ss ops ->
  sops_ok (ss ++ ss') (ops ++ rops (writes_from (seg_labels ss) (List.length ss) ss')).
Proof.
  intros [H1 H2]. split.
  - rewrite forallb_app, H1, rops_no_table. reflexivity.
  - rewrite batches_app, H2, rops_batches by apply writes_from_nonempty. rewrite writes_from_app. reflexivity.
Qed.
Lemma sops_flush ss ops : sops_ok ss ops -> sops_ok ss (ops ++ [Flush]).
Proof.
  intros [H1 H2]. split; [rewrite forallb_app, H1; reflexivity|]. rewrite batches_app, H2. cbn. apply app_nil_r.
Qed.
Lemma sadded_snoc h c : sadded (h ++ [c]) = sadded h ++ match c with SAdd ss => ss | SFinal _ => [] end.
Proof. unfold sadded. rewrite map_app, concat_app. cbn. rewrite app_nil_r. reflexivity. Qed.
Lemma seg_labels_app a b : seg_labels (a ++ b) = first_appearance (seg_labels a) (List.concat (map seg_datum_labels b)).
Proof. unfold seg_labels. rewrite map_app, concat_app, first_appearance_app. reflexivity. Qed.

Lemma smb_state bs h : exists ops, sops_ok (sadded h) ops /\
  smb_run bs h = MkSMB (seg_labels (sadded h)) (List.length (sadded h)) (mem_run bs ops).
Proof.
  induction h as [|c h IH] using rev_ind.
  - exists []. split; [split; reflexivity|reflexivity].
  - destruct IH as (ops & Hok & E). unfold smb_run in *. rewrite fold_left_app, E, sadded_snoc. cbn [fold_left]. destruct c as [ss|o]; cbn [smb_call].
    + exists (ops ++ rops (writes_from (seg_labels (sadded h)) (List.length (sadded h)) ss)). split; [apply sops_add; exact Hok|].
      unfold smb_add. cbn [smb_labels smb_count smb_writer]. rewrite seg_add_data_spec. cbn [sl_labels sl_count sl_writes app].
      rewrite seg_labels_app, app_length, fold_mem_rops. f_equal. unfold mem_run. rewrite fold_left_app. reflexivity.
    + exists (ops ++ [Flush]). rewrite app_nil_r. split; [apply sops_flush; exact Hok|].
      unfold smb_finalize. cbn [smb_labels smb_count smb_writer].
      assert (X : mem_flush (mem_run bs ops) = mem_run bs (ops ++ [Flush])) by (unfold mem_run; rewrite fold_left_app; reflexivity).
      destruct (Nat.eqb _ 0); cbn [fst]; rewrite X; reflexivity.
Qed.
Lemma sfb_state bs rpf h : exists ops, sops_ok (sadded h) ops /\
  sfb_run bs rpf h = MkSFB (seg_labels (sadded h)) (List.length (sadded h)) (file_run bs rpf ops).
Proof.
  induction h as [|c h IH] using rev_ind.
  - exists []. split; [split; reflexivity|reflexivity].
  - destruct IH as (ops & Hok & E). unfold sfb_run in *. rewrite fold_left_app, E, sadded_snoc. cbn [fold_left]. destruct c as [ss|o]; cbn [sfb_call].
    + exists (ops ++ rops (writes_from (seg_labels (sadded h)) (List.length (sadded h)) ss)). split; [apply sops_add; exact Hok|].
      unfold sfb_add. cbn [sfb_labels sfb_count sfb_writer]. rewrite seg_add_data_spec. cbn [sl_labels sl_count sl_writes app].
      rewrite seg_labels_app, app_length, fold_file_rops. f_equal. unfold file_run. rewrite fold_left_app. reflexivity.
    + exists (ops ++ [Flush]). rewrite app_nil_r. split; [apply sops_flush; exact Hok|].
      unfold sfb_finalize. cbn [sfb_labels sfb_count sfb_writer].
      assert (X : file_flush (file_run bs rpf ops) = file_run bs rpf (ops ++ [Flush])) by (unfold file_run; rewrite fold_left_app; reflexivity).
      destruct (Nat.eqb _ 0); cbn [fst]; rewrite X; reflexivity.
Qed.

Lemma written_batches {A} (ops : list (wop A)) : written ops = List.concat (batches ops).
Proof. symmetry. apply batches_rows. Qed.
Lemma base_nil ss : base ss = [] <-> ss = [].
Proof.
  split; [|intros ->; reflexivity]. destruct ss as [|s ss]; [reflexivity|]. unfold base. cbn [writes_from List.concat].
  intros H. apply app_eq_nil in H. destruct H as [H _]. exfalso. exact (drows_nonempty _ _ _ H).
Qed.
Lemma count_rows_concat {A} (d : dir A) : file_count_rows d = List.length (List.concat (file_tables d)).
Proof.
  unfold file_count_rows, file_tables.
  assert (P : Permutation d (isort frag_leb d)) by apply isort_perm.
  rewrite (list_sum_nat_perm _ _ (Permutation_map (fun e => List.length (snd e)) P)).
  generalize (isort frag_leb d). clear. induction l as [|e l IH]; [reflexivity|]. cbn [map List.concat list_sum_nat fold_right].
  rewrite app_length. unfold list_sum_nat in IH. rewrite IH. reflexivity.
Qed.

(* ------------------------------------------------------------------ finalize *)
Lemma smb_finalize_spec bs h o :
  let r := snd (smb_finalize o (smb_run bs h)) in
  (sadded h = [] -> r = EmptyCache) /\
  (sadded h <> [] -> r = Done (MkSE [base (sadded h)] (match o with Some d => d | None => seg_extract_labels [base (sadded h)] end))).
Proof.
  cbv zeta. destruct (smb_state bs h) as (ops & [Ho Hb] & ->). unfold smb_finalize. cbn [smb_labels smb_count smb_writer].
  assert (E : m_table (mem_flush (mem_run bs ops)) = base (sadded h)).
  { change (m_table (mem_flush (mem_run bs ops))) with (mem_read (mem_run bs ops)). rewrite mem_order by (apply mem_safe_no_table; exact Ho).
    rewrite written_batches, Hb. reflexivity. }
  rewrite E. destruct (base (sadded h)) as [|b l] eqn:B; cbn [List.length Nat.eqb snd].
  - apply base_nil in B. split; [reflexivity|congruence].
  - split; [|reflexivity]. intros C. rewrite C in B. discriminate.
Qed.
Lemma sfb_finalize_spec bs rpf h o :
  let r := sfb_finalize o (sfb_run bs rpf h) in
  (sadded h = [] -> snd r = EmptyCache) /\
  (sadded h <> [] -> exists T, snd r = Done (MkSE T (match o with Some d => d | None => seg_extract_labels T end))
     /\ fresh (sadded h) T
     /\ forall d, Permutation d (f_dir (sfb_writer (fst r))) -> file_tables d = T).
Proof.
  cbv zeta. destruct (sfb_state bs rpf h) as (ops & [Ho Hb] & ->). unfold sfb_finalize. cbn [sfb_labels sfb_count sfb_writer].
  set (w := file_flush (file_run bs rpf ops)). 
  destruct (read_batches bs rpf ops (f_dir w)) as (gs & Hg & Hc); [apply Permutation_refl|].
  rewrite Hb in Hc. assert (E : List.concat (file_tables (f_dir w)) = base (sadded h)).
  { rewrite Hg, concat_map_concat, Hc. reflexivity. }
  rewrite count_rows_concat, E. destruct (base (sadded h)) as [|b l] eqn:B; cbn [List.length Nat.eqb snd fst].
  - apply base_nil in B. split; [reflexivity|congruence].
  - split; [intros C; rewrite C in B; discriminate|]. intros _. exists (file_tables (f_dir w)). split; [reflexivity|]. split.
    + exists gs. split; assumption.
    + intros d Hd. cbn [sfb_writer] in Hd. etransitivity; [apply (read_tables bs rpf ops); exact Hd|].
      symmetry. apply (read_tables bs rpf ops). apply Permutation_refl.
Qed.

(* ------------------------------------------------------------------ filter *)
Lemma tables_guarded_all {A} (ts : list (list A)) : tables_guarded true (map WriteTable ts) = true.
Proof. induction ts as [|t ts IH]; [reflexivity|exact IH]. Qed.
Lemma written_tables {A} (ts : list (list A)) : written (map WriteTable ts) = List.concat ts.
Proof. unfold written. rewrite map_map. cbn [op_rows]. rewrite map_id. reflexivity. Qed.
Lemma batches_tables {A} (ts : list (list A)) : batches (map WriteTable ts) = ts.
Proof. unfold batches. rewrite map_map. cbn [op_batches]. induction ts as [|t ts IH]; [reflexivity|]. cbn. f_equal. exact IH. Qed.

Lemma filter_mem_spec bs e ed eg ep :
  let R := List.concat (map (seg_filter_table ed eg ep) (se_tables e)) in
  seg_filter_mem bs e ed eg ep = match R with [] => EmptyCache | _ :: _ => Done (MkSE [R] (se_labels e)) end.
Proof.
  cbv zeta. unfold seg_filter_mem. rewrite <- (map_map (seg_filter_table ed eg ep) WriteTable).
  unfold smb_finalize. cbn [smb_labels smb_count smb_writer].
  set (ts := map (seg_filter_table ed eg ep) (se_tables e)).
  assert (E : m_table (mem_flush (fold_left (mem_step bs) (map WriteTable ts) mem_init)) = List.concat ts).
  { change (mem_read (mem_run bs (map WriteTable ts)) = List.concat ts).
    rewrite mem_order by (apply mem_safe_guarded, tables_guarded_all). apply written_tables. }
  rewrite E. destruct (List.concat ts); reflexivity.
Qed.
Lemma filter_file_spec bs rpf e ed eg ep :
  let ts := map (seg_filter_table ed eg ep) (se_tables e) in
  match List.concat ts with
  | [] => seg_filter_file bs rpf e ed eg ep = EmptyCache
  | _ :: _ => exists gs, seg_filter_file bs rpf e ed eg ep = Done (MkSE (map (@List.concat srow) gs) (se_labels e)) /\ List.concat gs = ts
  end.
Proof.
  cbv zeta. unfold seg_filter_file, seg_filter_build. rewrite <- (map_map (seg_filter_table ed eg ep) WriteTable).
  unfold sfb_finalize. cbn [sfb_labels sfb_count sfb_writer].
  set (ts := map (seg_filter_table ed eg ep) (se_tables e)).
  change (fold_left (file_step bs rpf) (map WriteTable ts) file_init) with (file_run bs rpf (map WriteTable ts)).
  destruct (read_batches bs rpf (map WriteTable ts) (f_dir (file_flush (file_run bs rpf (map WriteTable ts))))) as (gs & Hg & Hc); [apply Permutation_refl|].
  rewrite batches_tables in Hc.
  rewrite count_rows_concat, Hg, concat_map_concat, Hc.
  destruct (List.concat ts) as [|x l]; [reflexivity|]. exists gs. split; [reflexivity|exact Hc].
Qed.

Lemma holds_groups ss v gs : holds ss v (List.concat gs) -> holds ss v (map (@List.concat srow) gs).
Proof. intros [H1 H2]. split; [rewrite concat_map_concat; exact H1|apply aligned_groups; exact H2]. Qed.
Lemma holds_single ss v T : holds ss v T -> holds ss v [List.concat T].
Proof. intros [H1 H2]. split; [cbn; rewrite app_nil_r; exact H1|apply aligned_single]. Qed.

Theorem obtained_holds ss v e : obtained ss v e -> Forall clean ss ->
  ss <> [] /\ holds ss v (se_tables e) /\ label_map (seg_labels ss) (se_labels e).
Proof.
  intros H Hc. induction H.
  - destruct (smb_finalize_spec bs h None) as [H1 H2].
    assert (N : sadded h <> []) by (intros N; rewrite (H1 N) in H; discriminate).
    rewrite (H2 N) in H. injection H as <-. cbn [se_tables se_labels]. split; [exact N|].
    assert (F : fresh (sadded h) [base (sadded h)]).
    { exists [writes_from [] 0 (sadded h)]. split; [reflexivity|]. cbn. apply app_nil_r. }
    split; [apply fresh_holds; assumption|apply fresh_labels; assumption].
  - destruct (sfb_finalize_spec bs rpf h None) as [H1 H2].
    assert (N : sadded h <> []) by (intros N; rewrite (H1 N) in H; discriminate).
    destruct (H2 N) as (T & E & F & _). rewrite E in H. injection H as <-. cbn [se_tables se_labels]. split; [exact N|].
    split; [apply fresh_holds; assumption|apply fresh_labels; assumption].
  - destruct (sfb_finalize_spec bs rpf h None) as [H1 H2].
    assert (N : sadded h <> []) by (intros N; rewrite (H1 N) in H; discriminate).
    destruct (H2 N) as (T & E & F & D). split; [exact N|]. unfold seg_load. cbn [se_tables se_labels]. rewrite (D d H0).
    split; [apply fresh_holds; assumption|apply fresh_labels; assumption].
  - destruct (IHobtained Hc) as (N & HT & HL). split; [exact N|].
    pose proof (holds_filter ss v w (se_tables e) ed eg ep Hc HT H0 H1 H2) as HF.
    rewrite filter_mem_spec in H3. cbv zeta in H3.
    destruct (List.concat (map (seg_filter_table ed eg ep) (se_tables e))) as [|x l] eqn:E; [discriminate|].
    injection H3 as <-. cbn [se_tables se_labels]. split; [|exact HL]. rewrite <- E. apply holds_single. exact HF.
  - destruct (IHobtained Hc) as (N & HT & HL). split; [exact N|].
    pose proof (holds_filter ss v w (se_tables e) ed eg ep Hc HT H0 H1 H2) as HF.
    pose proof (filter_file_spec bs rpf e ed eg ep) as HS. cbv zeta in HS.
    destruct (List.concat (map (seg_filter_table ed eg ep) (se_tables e))) as [|x l] eqn:E; [congruence|].
    destruct HS as (gs & HS & Hg). rewrite HS in H3. injection H3 as <-. cbn [se_tables se_labels]. split; [|exact HL].
    apply holds_groups. rewrite Hg. exact HF.
Qed.

(* the datums of the tables are the kept ones *)
Lemma base_has ss k s : nth_error ss k = Some s -> Forall clean ss -> exists r, In r (base ss) /\ s_datum r = Z.of_nat k.
Proof.
  intros Hk Hc. destruct (writes_from_nth ss [] 0 k s Hk) as (L' & H1 & H2 & _). cbn [Nat.add] in H1.
  assert (N : NoDup L') by (subst L'; apply first_appearance_NoDup; constructor).
  destruct (drows L' k s) as [|r l] eqn:E; [exfalso; exact (drows_nonempty _ _ _ E)|].
  exists r. split.
  - apply in_concat. exists (r :: l). split; [eapply nth_error_In; exact H1|left; reflexivity].
  - assert (Hr : In r (drows L' k s)) by (rewrite E; left; reflexivity). clear E.
    rewrite Forall_forall in Hc. destruct (drows_In L' k s N (Hc s (nth_error_In _ _ Hk)) r Hr) as (i & j & _ & _ & _ & D & _). exact D.
Qed.
Lemma holds_datums ss v T k : Forall clean ss -> holds ss v T ->
  (exists r, In r (List.concat T) /\ s_datum r = Z.of_nat k) <-> exists s, nth_error ss k = Some s /\ v_datum v s = true.
Proof.
  intros Hc HT. split.
  - intros (r & Hr & Hd). destruct (holds_row ss v T Hc HT r Hr) as (k' & s & Hk & (D & _) & Hv & _).
    assert (k' = k) by lia. subst. eauto.
  - intros (s & Hk & Hv). destruct (base_has ss k s Hk Hc) as (r & Hr & Hd). destruct HT as [-> _].
    exists (mask_row ss v r). split; [|exact Hd]. apply in_map, filter_In. split; [exact Hr|].
    unfold rkept, datum_of. rewrite Hd, Nat2Z.id, Hk. exact Hv.
Qed.
Lemma holds_nil ss v T : Forall clean ss -> holds ss v T -> (List.concat T = [] <-> forall s, In s ss -> v_datum v s = false).
Proof.
  intros Hc HT. split.
  - intros E s Hs. destruct (v_datum v s) eqn:V; [|reflexivity]. apply In_nth_error in Hs. destruct Hs as (k & Hk).
    destruct (proj2 (holds_datums ss v T k Hc HT)) as (r & Hr & _); [eauto|]. rewrite E in Hr. destruct Hr.
  - intros H. destruct (List.concat T) as [|r l] eqn:E; [reflexivity|].
    destruct (holds_row ss v T Hc HT r) as (k & s & Hk & _ & Hv & _); [rewrite E; left; reflexivity|].
    rewrite (H s (nth_error_In _ _ Hk)) in Hv. discriminate.
Qed.

(* filter raises exactly when nothing is left *)
Theorem filter_empty ss v e bs rpf ed eg ep w : obtained ss v e -> Forall clean ss ->
  datum_expr ss ed (v_datum w) -> gt_expr ss eg (v_gt w) -> pd_expr ss ep (v_pd w) ->
  (forall o, o = seg_filter_mem bs e ed eg ep \/ o = seg_filter_file bs rpf e ed eg ep ->
    (o = EmptyCache /\ forall s, In s ss -> v_datum v s && v_datum w s = false)
    \/ ((exists e', o = Done e') /\ exists s, In s ss /\ v_datum v s && v_datum w s = true)).
Proof.
  intros H Hc Hd Hg Hp o Ho. destruct (obtained_holds ss v e H Hc) as (_ & HT & _).
  pose proof (holds_filter ss v w (se_tables e) ed eg ep Hc HT Hd Hg Hp) as HF.
  pose proof (holds_nil ss (and_view v w) _ Hc HF) as HN. cbn [and_view v_datum] in HN.
  pose proof (filter_file_spec bs rpf e ed eg ep) as HS. cbv zeta in HS. rewrite filter_mem_spec in Ho. cbv zeta in Ho.
  destruct (List.concat (map (seg_filter_table ed eg ep) (se_tables e))) as [|x l] eqn:E.
  - left. split; [destruct Ho as [->| ->]; [reflexivity|exact HS]|]. apply HN. reflexivity.
  - right. split; [destruct Ho as [->| ->]; [eauto|destruct HS as (gs & HS & _); eauto]|].
    destruct (existsb (fun s => v_datum v s && v_datum w s) ss) eqn:X; [apply existsb_exists in X; exact X|].
    exfalso. assert (C : x :: l = []).
    { apply HN. intros s Hs. destruct (v_datum v s && v_datum w s) eqn:V; [|reflexivity].
      rewrite <- X. symmetry. apply existsb_exists. eauto. }
    discriminate.
Qed.
