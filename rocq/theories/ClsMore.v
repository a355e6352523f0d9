(* Classification lemmas: conservation laws, thresholds, filters, examples. *)
From Verif Require Import Prelude CacheModel CacheSpec Counting ClsModel ClsSpec ClsLabelProofs ClsProofs ClsConfProofs ClsLemmas.
From Coq Require Import String QArith.
Local Open Scope nat_scope.
Local Open Scope list_scope.

(* ------------------------------------------------------------------ *)
(** * Confusion matrix at one requested threshold *)

Lemma confusion_entry cs tol9 hm thrs tables datums sel k thr :
  Forall accepted cs -> stored cs tables -> selects cs tables datums sel -> nth_error thrs k = Some thr ->
  exists M, nth_error (evaluate_confusion tol9 hm thrs datums tables) k = Some M
    /\ (forall i j g p, nth_error (labels_of cs) i = Some g -> nth_error (labels_of cs) j = Some p ->
          cm M (Z.of_nat i) (Z.of_nat j)
          = countb (fun c => sel c && (String.eqb (c_groundtruth c) g
                       && smem p (positives hm (pass_cm tol9 (firstn (S k) thrs)) c))) cs)
    /\ (forall i g, nth_error (labels_of cs) i = Some g ->
          cm_unmatched M (Z.of_nat i)
          = countb (fun c => sel c && (String.eqb (c_groundtruth c) g
                       && match positives hm (pass_cm tol9 (firstn (S k) thrs)) c with [] => true | _ => false end)) cs).
Proof.
  intros Hacc Hst Hsel Hk.
  destruct (evaluate_confusion_nth tol9 hm thrs datums tables k thr Hk) as (m & M & _ & Hm & HM & Hcm & Hun).
  exists M. split; [exact HM|]. split.
  - intros i j g p Hi Hj. destruct (nth_label cs i g Hi) as (_ & Hg & ->), (nth_label cs j p Hj) as (_ & Hp & ->).
    rewrite Hcm. apply (cm_meaning cs Hacc hm (pass_cm tol9 (firstn (S k) thrs)) m Hm tables datums sel g p); auto.
  - intros i g Hi. destruct (nth_label cs i g Hi) as (_ & Hg & ->).
    rewrite Hun. apply (unmatched_meaning cs Hacc hm (pass_cm tol9 (firstn (S k) thrs)) m Hm tables datums sel g); auto.
Qed.

Lemma positives_labels hm pass cs c p : Forall accepted cs -> In c cs -> In p (positives hm pass c) -> In p (labels_of cs).
Proof.
  intros Hacc Hc Hp. unfold positives in Hp. destruct hm.
  - destruct (top c) as [[l s]|] eqn:Et; [|destruct Hp]. destruct (pass s); [|destruct Hp].
    destruct Hp as [<-|[]]. rewrite Forall_forall in Hacc.
    destruct (top_is_top c (l, s) (Hacc c Hc) Et) as (pre & post & E & _).
    apply (labels_of_pd cs c (l, s) Hc). rewrite E. apply in_app_iff. right. left. reflexivity.
  - apply in_map_iff in Hp. destruct Hp as (q & <- & Hq). apply filter_In in Hq.
    apply (labels_of_pd cs c q Hc). tauto.
Qed.

(* with hardmax at most one label is predicted *)
Lemma positives_hardmax pass c : positives true pass c = [] \/ exists l, positives true pass c = [l].
Proof.
  unfold positives. destruct (top c) as [[l s]|]; [destruct (pass s); eauto|auto].
Qed.

Lemma countb_add {A} (f g h : A -> bool) l :
  (forall a, In a l -> (if h a then 1 else 0) = (if f a then 1 else 0) + (if g a then 1 else 0)) ->
  countb f l + countb g l = countb h l.
Proof.
  intros H. unfold countb. induction l as [|a t IH]; [reflexivity|].
  pose proof (H a (or_introl eq_refl)) as Ha. specialize (IH (fun b Hb => H b (or_intror Hb))). cbn.
  destruct (f a), (g a), (h a); cbn in *; lia.
Qed.

Lemma confusion_conserves cs tol9 thrs tables datums sel k thr M i g :
  Forall accepted cs -> stored cs tables -> selects cs tables datums sel -> nth_error thrs k = Some thr ->
  nth_error (evaluate_confusion tol9 true thrs datums tables) k = Some M ->
  nth_error (labels_of cs) i = Some g ->
  list_sum_nat (map (fun j => cm M (Z.of_nat i) (Z.of_nat j)) (seq 0 (List.length (labels_of cs)))) + cm_unmatched M (Z.of_nat i)
  = countb (fun c => sel c && String.eqb (c_groundtruth c) g) cs.
Proof.
  intros Hacc Hst Hsel Hk HM Hi.
  destruct (confusion_entry cs tol9 true thrs tables datums sel k thr Hacc Hst Hsel Hk) as (M' & HM' & Hcm & Hun).
  rewrite HM in HM'. injection HM' as <-. rewrite (Hun i g Hi).
  set (pos := positives true (pass_cm tol9 (firstn (S k) thrs))) in *.
  rewrite (list_sum_nat_ext _ (fun j => countb (fun c => sel c && (String.eqb (c_groundtruth c) g
     && match nth_error (labels_of cs) j with Some p => smem p (pos c) | None => false end)) cs)).
  2: { intros j Hj. apply in_seq in Hj. destruct (nth_error (labels_of cs) j) as [p|] eqn:Ej.
       - apply Hcm; auto.
       - apply nth_error_None in Ej. lia. }
  rewrite (countb_partition _ (fun c => sel c && (String.eqb (c_groundtruth c) g && match pos c with [] => false | _ => true end)) cs).
  - apply countb_add. intros c _. destruct (sel c), (String.eqb (c_groundtruth c) g), (pos c); reflexivity.
  - intros c Hc.
    destruct (sel c), (String.eqb (c_groundtruth c) g); cbn [andb];
      try (clear; induction (seq 0 (List.length (labels_of cs))); cbn; auto; fail).
    destruct (positives_hardmax (pass_cm tol9 (firstn (S k) thrs)) c) as [E|(l & E)]; fold pos in E; rewrite E.
    + rewrite (list_sum_nat_ext _ (fun _ => 0)).
      * clear. induction (seq 0 (List.length (labels_of cs))); cbn; auto.
      * intros j _. destruct (nth_error (labels_of cs) j); reflexivity.
    + rewrite (one_position (labels_of cs) l); auto using labels_of_NoDup.
      * assert (smem l (labels_of cs) = true) as ->; [|reflexivity].
        apply smem_In. apply (positives_labels true (pass_cm tol9 (firstn (S k) thrs)) cs c); auto.
        fold pos. rewrite E. left. reflexivity.
      * intros j _. destruct (nth_error (labels_of cs) j) as [p|]; [|reflexivity]. unfold smem. cbn. apply orb_false_r.
Qed.

(* ascending thresholds: the last one decides *)
Lemma pass_ascending tol9 thrs k thr s :
  StronglySorted Z.le thrs -> nth_error thrs k = Some thr ->
  pass_cm tol9 (firstn (S k) thrs) s = pass_cm tol9 [thr] s.
Proof.
  intros Hs Hk. unfold pass_cm. f_equal. cbn [forallb]. rewrite andb_true_r.
  revert k Hk. induction Hs as [|t thrs Hs IH Hf]; intros k Hk; [destruct k; discriminate|].
  destruct k as [|k].
  - cbn in *. injection Hk as ->. apply andb_true_r.
  - change (firstn (S (S k)) (t :: thrs)) with (t :: firstn (S k) thrs). set (f := firstn (S k) thrs). cbn [forallb]. subst f.
    rewrite (IH k Hk). cbn in Hk. rewrite Forall_forall in Hf.
    pose proof (Hf thr (nth_error_In _ _ Hk)). lia.
Qed.

(* ------------------------------------------------------------------ *)
(** * TP + FN *)

Lemma tp_fn_hardmax cs tol thr tables datums sel i l :
  Forall accepted cs -> few_labels cs -> Forall distinct_candidates cs ->
  stored cs tables -> selects cs tables datums sel -> nth_error (labels_of cs) i = Some l ->
  n_tp (total tol true thr datums tables (Z.of_nat i)) + n_fn (total tol true thr datums tables (Z.of_nat i))
  = countb (fun c => sel c && (String.eqb (c_groundtruth c) l && noticed (decides (fun s => (tol <? Z.abs s)%Z) thr) c)) cs.
Proof.
  intros Hacc Hfew Hd Hst Hsel Hi. destruct (nth_label cs i l Hi) as (_ & Hl & ->).
  rewrite (counts_hardmax cs Hacc Hfew tol thr tables datums sel l) by auto. cbn [n_tp n_fn].
  apply countb_add. intros c _. unfold outcome_tp, outcome_fn, noticed.
  destruct (sel c), (String.eqb_spec (c_groundtruth c) l) as [E|N]; cbn; try reflexivity.
  destruct (decides _ thr c) as [x|]; cbn; [|destruct (smem _ _); reflexivity].
  rewrite orb_true_r. destruct (String.eqb x l); reflexivity.
Qed.

(* ------------------------------------------------------------------ *)
(** * Filter *)

Definition kept (datums : crow -> bool) (gts pds : option (crow -> bool)) (all : list crow) (r : crow) : bool :=
  datums r
  && (match gts with None => true | Some f => existsb (fun x => datums x && f x && same_gt r x) all end)
  && (match pds with None => true | Some f => existsb (fun x => datums x && f x && same_pd r x) all end).

Lemma filter_concat_map {A} (f : list A -> A -> bool) (h : A -> bool) tables :
  (forall t, In t tables -> forall r, In r t -> f t r = h r) ->
  List.concat (map (fun t => filter (f t) t) tables) = filter h (List.concat tables).
Proof.
  induction tables as [|t ts IH]; intros H; [reflexivity|]. cbn. rewrite filter_app, IH by (intros; apply H; cbn; auto).
  f_equal. apply filter_ext_in. intros r Hr. apply (H t); cbn; auto.
Qed.

Lemma filter_filter {A} (f g : A -> bool) l : filter f (filter g l) = filter (fun x => g x && f x) l.
Proof.
  induction l as [|x t IH]; [reflexivity|]. cbn. destruct (g x); cbn; [|exact IH].
  destruct (f x); cbn; rewrite IH; reflexivity.
Qed.

(* in an aligned cache "somewhere in the table" is "somewhere in the cache" *)
Lemma existsb_local tables t (P : crow -> crow -> bool) r :
  aligned r_datum tables -> In t tables -> In r t -> (forall x, P r x = true -> r_datum r = r_datum x) ->
  existsb (P r) t = existsb (P r) (List.concat tables).
Proof.
  intros Hal Ht Hr HP. apply eq_true_iff_eq. rewrite !existsb_exists. split; intros (x & Hx & Hp).
  - exists x. split; [apply in_concat; eauto|exact Hp].
  - exists x. split; [|exact Hp]. apply in_concat in Hx. destruct Hx as (t' & Ht' & Hx).
    apply In_nth_error in Ht, Ht'. destruct Ht as (i & Hi), Ht' as (j & Hj).
    assert (i = j) by (apply (Hal i j t t' r x); auto). subst j. congruence.
Qed.

Lemma filter_tables_rows datums gts pds tables :
  aligned r_datum tables ->
  List.concat (filter_tables datums gts pds tables) = filter (kept datums gts pds (List.concat tables)) (List.concat tables).
Proof.
  intros Hal. unfold filter_tables, filter_table.
  rewrite (map_ext _ (fun t => filter (fun r => datums r
     && ((match gts with None => true | Some f => existsb (fun x => datums x && f x && same_gt r x) t end)
     && (match pds with None => true | Some f => existsb (fun x => datums x && f x && same_pd r x) t end))) t)).
  - apply (filter_concat_map (fun t r => datums r
     && ((match gts with None => true | Some f => existsb (fun x => datums x && f x && same_gt r x) t end)
     && (match pds with None => true | Some f => existsb (fun x => datums x && f x && same_pd r x) t end)))).
    intros t Ht r Hr. unfold kept. rewrite <- andb_assoc. f_equal. f_equal.
    + destruct gts as [f|]; [|reflexivity].
      apply (existsb_local tables t (fun r x => datums x && f x && same_gt r x)); auto.
      intros x H. unfold same_gt in H. rewrite !andb_true_iff in H. lia.
    + destruct pds as [f|]; [|reflexivity].
      apply (existsb_local tables t (fun r x => datums x && f x && same_pd r x)); auto.
      intros x H. unfold same_pd in H. rewrite !andb_true_iff in H. lia.
  - intros t. rewrite filter_filter. apply filter_ext. intros r. f_equal. f_equal.
    + destruct gts as [f|]; [|reflexivity]. apply eq_true_iff_eq. rewrite !existsb_exists. split; intros (x & Hx & H); exists x.
      * apply filter_In in Hx. destruct Hx as [Hx Hf]. apply filter_In in Hx. destruct Hx as [Hx Hd]. rewrite Hf, Hd. auto.
      * rewrite !andb_true_iff in H. destruct H as ((Hd & Hf) & H). split; [|exact H]. rewrite !filter_In. auto.
    + destruct pds as [f|]; [|reflexivity]. apply eq_true_iff_eq. rewrite !existsb_exists. split; intros (x & Hx & H); exists x.
      * apply filter_In in Hx. destruct Hx as [Hx Hf]. apply filter_In in Hx. destruct Hx as [Hx Hd]. rewrite Hf, Hd. auto.
      * rewrite !andb_true_iff in H. destruct H as ((Hd & Hf) & H). split; [|exact H]. rewrite !filter_In. auto.
Qed.

Lemma filter_tables_sub datums gts pds tables i t : nth_error (filter_tables datums gts pds tables) i = Some t ->
  exists t0, nth_error tables i = Some t0 /\ forall r, In r t -> In r t0.
Proof.
  unfold filter_tables. rewrite nth_error_map. destruct (nth_error tables i) as [t0|]; [|discriminate].
  intros [= <-]. exists t0. split; [reflexivity|]. intros r. unfold filter_table. rewrite !filter_In. tauto.
Qed.
Lemma filter_tables_aligned datums gts pds tables :
  aligned r_datum tables -> aligned r_datum (filter_tables datums gts pds tables).
Proof.
  intros Hal i j ti tj a b Hi Hj Ha Hb E.
  destruct (filter_tables_sub _ _ _ _ _ _ Hi) as (t0 & H0 & S0), (filter_tables_sub _ _ _ _ _ _ Hj) as (t1 & H1 & S1).
  exact (Hal i j t0 t1 a b H0 H1 (S0 a Ha) (S1 b Hb) E).
Qed.

Lemma filter_datums_only datums tables : filter_tables datums None None tables = map (filter datums) tables.
Proof.
  unfold filter_tables, filter_table. apply map_ext. intros t. apply filter_all. reflexivity.
Qed.
Lemma filter_true_id {A} (l : list A) : filter (fun _ => true) l = l.
Proof. apply filter_all. reflexivity. Qed.
Lemma counts_after_filter tol hm thrs n datums tables :
  evaluate_counts tol hm thrs n (fun _ => true) (filter_tables datums None None tables) = evaluate_counts tol hm thrs n datums tables.
Proof.
  rewrite filter_datums_only. unfold evaluate_counts. generalize (map (fun _ : Z => map (fun _ : nat => counts_zero) (seq 0 n)) thrs).
  induction tables as [|t ts IH]; intros acc; [reflexivity|]. cbn. rewrite filter_true_id. apply IH.
Qed.
Lemma confusion_after_filter tol9 hm thrs datums tables :
  evaluate_confusion tol9 hm thrs (fun _ => true) (filter_tables datums None None tables) = evaluate_confusion tol9 hm thrs datums tables.
Proof.
  rewrite filter_datums_only. unfold evaluate_confusion. apply map_ext. intros m. generalize conf_zero.
  induction tables as [|t ts IH]; intros acc; [reflexivity|]. cbn. rewrite filter_true_id. apply IH.
Qed.

(* in terms of the input *)
Lemma filter_stored cs tables datums sel gts sg pds (sp : classification -> string * Z -> bool) r :
  Forall accepted cs -> Forall distinct_candidates cs -> stored cs tables -> selects cs tables datums sel ->
  selects cs tables gts sg ->
  (forall r d c, In r (List.concat tables) -> r_datum r = Z.of_nat d -> nth_error cs d = Some c -> pds r = sp c (r_pd_label r, r_score r)) ->
  In r (List.concat (filter_tables datums (Some gts) (Some pds) tables))
  <-> In r (List.concat tables) /\
      exists d c, r_datum r = Z.of_nat d /\ nth_error cs d = Some c /\ sel c = true /\ sg c = true /\ sp c (r_pd_label r, r_score r) = true.
Proof.
  intros Hacc Hdist Hst Hsel Hgts Hpds. rewrite filter_tables_rows by apply Hst. rewrite filter_In.
  split; intros [Hr H]; (split; [exact Hr|]); destruct (stored_row cs Hacc tables r Hst Hr) as (d & c & Hc & Hcan & _);
    pose proof (canon_In _ _ _ _ Hcan) as (_ & Ed & _ & Eg & Ep & Hin & _).
  - exists d, c. split; [exact Ed|]. split; [exact Hc|]. unfold kept in H. rewrite !andb_true_iff, !existsb_exists in H.
    destruct H as ((Hd & (x & Hx & Hgx)) & (y & Hy & Hpy)).
    rewrite (Hsel r d c Hr Ed Hc) in Hd. split; [exact Hd|].
    rewrite !andb_true_iff in Hgx, Hpy. destruct Hgx as ((_ & Hgx) & Hsx), Hpy as ((_ & Hpy) & Hsy).
    unfold same_gt in Hsx. unfold same_pd in Hsy. rewrite andb_true_iff, !Z.eqb_eq in Hsx, Hsy.
    rewrite (Hgts x d c Hx) in Hgx by (auto; lia). split; [exact Hgx|].
    destruct (stored_row cs Hacc tables y Hst Hy) as (d' & c' & Hc' & Hcan' & _).
    pose proof (canon_In _ _ _ _ Hcan') as (_ & Ed' & _ & _ & Ep' & Hin' & _).
    assert (d' = d) by lia. subst d'. rewrite Hc in Hc'. injection Hc' as <-.
    assert (r = y) as <-.
    { apply (rows_label_inj cs d c); auto.
      - rewrite Forall_forall in Hdist. apply Hdist. eapply nth_error_In; eauto.
      - rewrite Forall_forall in Hacc. apply Hacc. eapply nth_error_In; eauto.
      - apply String.eqb_eq. rewrite <- (idx_eqb (labels_of cs)), <- Ep, <- Ep'; [lia|..];
          [apply (labels_of_pd cs c _ (nth_error_In _ _ Hc) Hin)|apply (labels_of_pd cs c _ (nth_error_In _ _ Hc) Hin')]. }
    rewrite (Hpds r d c Hr Ed Hc) in Hpy. exact Hpy.
  - destruct H as (d' & c' & Ed' & Hc' & H1 & H2 & H3). assert (d' = d) by lia. subst d'. rewrite Hc in Hc'. injection Hc' as <-.
    unfold kept. rewrite (Hsel r d c Hr Ed Hc), H1. cbn [andb]. apply andb_true_iff. rewrite !existsb_exists. split.
    + exists r. split; [exact Hr|]. rewrite (Hsel r d c Hr Ed Hc), H1, (Hgts r d c Hr Ed Hc), H2. unfold same_gt. rewrite !Z.eqb_refl. reflexivity.
    + exists r. split; [exact Hr|]. rewrite (Hsel r d c Hr Ed Hc), H1, (Hpds r d c Hr Ed Hc), H3. unfold same_pd. rewrite !Z.eqb_refl. reflexivity.
Qed.

(* ------------------------------------------------------------------ *)
(** * Schema and metadata fields *)

Lemma schema_rejected reserved fields :
  generate_schema reserved fields = None <-> exists f, In f fields /\ In (fst f) reserved.
Proof.
  unfold generate_schema. destruct (existsb _ fields) eqn:E.
  - split; [intros _|reflexivity]. apply existsb_exists in E. destruct E as (f & Hf & H). exists f. split; [exact Hf|].
    apply existsb_exists in H. destruct H as (x & Hx & H). apply String.eqb_eq in H. congruence.
  - split; [discriminate|]. intros (f & Hf & Hr). apply not_true_iff_false in E. exfalso. apply E.
    apply existsb_exists. exists f. split; [exact Hf|]. apply existsb_exists. exists (fst f). split; [exact Hr|apply String.eqb_refl].
Qed.
Lemma schema_accepted reserved fields s : generate_schema reserved fields = Some s ->
  s = reserved ++ map fst fields /\ (NoDup reserved -> NoDup (map fst fields) -> NoDup s).
Proof.
  intros H. pose proof H as H0. unfold generate_schema in H. destruct (existsb _ fields) eqn:E; [discriminate|]. injection H as <-.
  split; [reflexivity|]. intros N1 N2. apply NoDup_app_disjoint; auto.
  intros x Hx Hf. apply in_map_iff in Hf. destruct Hf as (f & <- & Hf).
  assert (generate_schema reserved fields = None) by (apply schema_rejected; eauto). congruence.
Qed.
Lemma sdict_set_new d k v : ~ In k (map fst d) -> sdict_set d k v = d ++ [(k, v)].
Proof.
  induction d as [|[k' v'] t IH]; cbn; intros H; [reflexivity|].
  destruct (String.eqb_spec k k') as [->|N]; [exfalso; apply H; auto|]. rewrite IH by tauto. reflexivity.
Qed.
Lemma encode_fields_id fields : NoDup (map fst fields) -> decode_fields (encode_fields fields) = fields.
Proof.
  unfold decode_fields, encode_fields. intros H.
  assert (G : forall l acc, NoDup (map fst (acc ++ l)) -> fold_left (fun d kv => sdict_set d (fst kv) (snd kv)) l acc = acc ++ l).
  { clear. induction l as [|[k v] t IH]; intros acc H; cbn; [rewrite app_nil_r; reflexivity|].
    rewrite sdict_set_new.
    - rewrite IH by (rewrite <- app_assoc; exact H). rewrite <- app_assoc. reflexivity.
    - rewrite map_app in H. cbn in H. apply NoDup_remove_2 in H. intros Hc. apply H. apply in_app_iff. auto. }
  apply (G fields []). exact H.
Qed.

(* ------------------------------------------------------------------ *)
(** * Examples of confusion-matrix cells *)

Lemma isort_In_iff {A} (le : A -> A -> bool) l x : In x (isort le l) <-> In x l.
Proof.
  split; apply Permutation_in; [symmetry|]; apply isort_perm.
Qed.
Lemma isort_NoDup {A} (le : A -> A -> bool) l : NoDup l -> NoDup (isort le l).
Proof. apply Permutation_NoDup, isort_perm. Qed.
Lemma isort_countb {A} (le : A -> A -> bool) f l : countb f (isort le l) = countb f l.
Proof. apply countb_perm. symmetry. apply isort_perm. Qed.

(* as many examples as counted pairs *)
Lemma cell_count m rows g p : List.length (cell_examples m rows g p) = cm (confusion_of m rows) g p.
Proof.
  unfold cell_examples, unique_matches, confusion_of, key3. cbn [cm]. rewrite map_length.
  apply (isort_countb zzz_leb (fun k => (snd (fst k) =? g)%Z && (snd k =? p)%Z)).
Qed.
Lemma unmatched_count m rows g : List.length (unmatched_examples m rows g) = cm_unmatched (confusion_of m rows) g.
Proof.
  unfold unmatched_examples, unique_unmatched, confusion_of, key2. cbn [cm_unmatched]. rewrite map_length.
  apply (isort_countb zz_leb (fun k => (snd k =? g)%Z)).
Qed.
Lemma cells_count tol9 hm thrs datums tables k M :
  nth_error (evaluate_confusion tol9 hm thrs datums tables) k = Some M ->
  (forall g p, exists ex, nth_error (evaluate_cell tol9 hm thrs datums tables g p) k = Some ex /\ List.length ex = cm M g p)
  /\ (forall g, exists ex, nth_error (evaluate_unmatched tol9 hm thrs datums tables g) k = Some ex /\ List.length ex = cm_unmatched M g).
Proof.
  unfold evaluate_confusion, evaluate_cell, evaluate_unmatched. rewrite nth_error_map. intros H.
  destruct (nth_error (masks tol9 hm thrs) k) as [m|] eqn:Em; [|discriminate]. cbn in H. injection H as <-. split.
  - intros g p. eexists. rewrite nth_error_map, Em. split; [reflexivity|]. rewrite length_concat, map_map.
    destruct (conf_fold m datums tables conf_zero g p) as [-> _]. cbn. unfold cm_total.
    apply list_sum_nat_ext. intros t _. apply cell_count.
  - intros g. eexists. rewrite nth_error_map, Em. split; [reflexivity|]. rewrite length_concat, map_map.
    destruct (conf_fold m datums tables conf_zero g 0%Z) as [_ ->]. cbn. unfold unmatched_total.
    apply list_sum_nat_ext. intros t _. apply unmatched_count.
Qed.

(* which datums a duplicate-free list of indices denotes *)
Lemma map_indices {A B} (v : Z -> B) (w : A -> B) (P : A -> bool) l (D : list Z) :
  NoDup D ->
  (forall z, In z D <-> exists d a, z = Z.of_nat d /\ nth_error l d = Some a /\ P a = true) ->
  (forall d a, nth_error l d = Some a -> P a = true -> v (Z.of_nat d) = w a) ->
  Permutation (map v D) (map w (filter P l)).
Proof.
  intros Hn Hin Hv.
  set (I := fix idxs (k : nat) (l : list A) : list nat := match l with [] => [] | a :: t => (if P a then [k] else []) ++ idxs (S k) t end).
  assert (HI : forall l k d, In d (I k l) <-> exists j a, d = k + j /\ nth_error l j = Some a /\ P a = true).
  { clear. induction l as [|a t IH]; intros k d; cbn.
    - split; [intros []|]. intros ([|j] & b & _ & E & _); discriminate.
    - rewrite in_app_iff, IH. split.
      + intros [H|(j & b & -> & Hj & Hp)].
        * destruct (P a) eqn:Ep; [|destruct H]. destruct H as [<-|[]]. exists 0, a. split; [lia|auto].
        * exists (S j), b. split; [lia|auto].
      + intros ([|j] & b & -> & Hj & Hp); cbn in Hj.
        * injection Hj as ->. rewrite Hp. left. left. lia.
        * right. exists j, b. split; [lia|auto]. }
  assert (HIn : forall l k, NoDup (I k l)).
  { clear Hin Hv. induction l0 as [|a t IH]; intros k; cbn; [constructor|].
    destruct (P a); cbn; [|apply IH]. constructor; [|apply IH]. rewrite HI. intros (j & b & E & _). lia. }
  transitivity (map v (map Z.of_nat (I 0 l))).
  - apply Permutation_map. apply NoDup_Permutation; [exact Hn| |].
    + apply FinFun.Injective_map_NoDup; [intros x y E; lia|apply HIn].
    + intros z. rewrite Hin, in_map_iff. split.
      * intros (d & a & -> & Hd & Hp). exists d. split; [reflexivity|]. apply HI. exists d, a. auto.
      * intros (d & <- & Hd). apply HI in Hd. destruct Hd as (j & a & -> & Hj & Hp). exists j, a. auto.
  - rewrite map_map.
    assert (G : forall l k, (forall d a, nth_error l d = Some a -> P a = true -> v (Z.of_nat (k + d)) = w a) ->
                map (fun x => v (Z.of_nat x)) (I k l) = map w (filter P l)).
    { clear. induction l as [|a t IH]; intros k H; [reflexivity|]. cbn. rewrite map_app, (IH (S k)).
      - destruct (P a) eqn:Ep; [|reflexivity]. cbn. f_equal. rewrite <- (H 0 a eq_refl Ep). f_equal. f_equal. lia.
      - intros d b Hd Hp. rewrite <- (H (S d) b Hd Hp). f_equal. f_equal. lia. }
    rewrite (G l 0); [reflexivity|]. exact Hv.
Qed.

Lemma NoDup_map_on {A B} (f : A -> B) l : (forall x y, In x l -> In y l -> f x = f y -> x = y) -> NoDup l -> NoDup (map f l).
Proof.
  intros Hinj Hn. induction Hn as [|x t Hx Hn IH]; cbn; constructor.
  - rewrite in_map_iff. intros (y & E & Hy). apply Hx. rewrite (Hinj x y); cbn; auto.
  - apply IH. intros a b Ha Hb. apply Hinj; cbn; auto.
Qed.

Lemma find_first {A} (f : A -> bool) l : (exists x, In x l /\ f x = true) -> exists x, find f l = Some x /\ In x l /\ f x = true.
Proof.
  intros (x & Hx & Hf). destruct (find f l) as [y|] eqn:E.
  - exists y. split; [reflexivity|]. apply find_some in E. exact E.
  - exfalso. pose proof (find_none f l E x Hx). congruence.
Qed.

Lemma score_of_distinct c p s : accepted c -> distinct_candidates c -> In (p, s) (candidates c) -> score_of p c = Some s.
Proof.
  intros [_ Hlen] Hd Hin. unfold score_of.
  destruct (find_first (fun q => String.eqb (fst q) p) (candidates c)) as ([p' s'] & -> & Hin' & E).
  { exists (p, s). split; [exact Hin|apply String.eqb_refl]. }
  cbn in E. apply String.eqb_eq in E. subst p'. cbn. f_equal.
  unfold distinct_candidates in Hd. rewrite <- (combine_fst (c_predictions c) (c_scores c) Hlen) in Hd.
  fold (candidates c) in Hd. revert Hd Hin Hin'. induction (candidates c) as [|[a b] t IH]; cbn; [intros _ []|].
  intros Hd [E1|H1] [E2|H2].
  - congruence.
  - injection E1 as -> ->. inversion Hd as [|? ? Hni]; subst. exfalso. apply Hni. apply in_map_iff. exists (p, s'). auto.
  - injection E2 as -> ->. inversion Hd as [|? ? Hni]; subst. exfalso. apply Hni. apply in_map_iff. exists (p, s). auto.
  - inversion Hd; subst. auto.
Qed.

Section Cells.
  Variable cs : list classification.
  Hypothesis Hacc : Forall accepted cs.
  Hypothesis Hdist : Forall distinct_candidates cs.
  Variables (hm : bool) (pass : Z -> bool) (m : crow -> bool).
  Hypothesis Hm : forall r, m r = pass (r_score r) && (if hm then r_winner r else true).
  Local Notation L := (labels_of cs).
  Variable tables : list (list crow).
  Hypothesis Hst : stored cs tables.
  Variables (datums : crow -> bool) (sel : classification -> bool).
  Hypothesis Hsel : selects cs tables datums sel.

  Definition uid_at (z : Z) : option string := option_map c_uid (nth_error cs (Z.to_nat z)).

  (* a row of a selected table *)
  Lemma table_row t r : In t tables -> In r (filter datums t) ->
    exists d c, nth_error cs d = Some c /\ In r (canon_rows L d c) /\ r_datum r = Z.of_nat d /\ sel c = true /\ In r t.
  Proof.
    intros Ht Hr. apply filter_In in Hr. destruct Hr as [Hr Hd].
    assert (Hr' : In r (List.concat tables)) by (apply in_concat; eauto).
    destruct (stored_row cs Hacc tables r Hst Hr') as (d & c & Hc & Hcan & _).
    pose proof (canon_In _ _ _ _ Hcan) as (_ & Ed & _).
    exists d, c. rewrite (Hsel r d c Hr' Ed Hc) in Hd. auto.
  Qed.

  Lemma uid_of_table t r : In t tables -> In r (filter datums t) ->
    uid_of (filter datums t) (r_datum r) = uid_at (r_datum r).
  Proof.
    intros Ht Hr. unfold uid_of, uid_at.
    destruct (find_first (fun x => (r_datum x =? r_datum r)%Z) (filter datums t)) as (x & -> & Hx & E).
    { exists r. split; [exact Hr|apply Z.eqb_refl]. }
    destruct (table_row t x Ht Hx) as (d & c & Hc & Hcan & Ed & _).
    pose proof (canon_In _ _ _ _ Hcan) as (Eu & _). apply Z.eqb_eq in E. rewrite <- E, Ed, Nat2Z.id, Hc. cbn. congruence.
  Qed.

  (* a row of the datum's rows lies in the table that has the others *)
  Lemma whole_datum t r r' d c : In t tables -> In r (filter datums t) -> nth_error cs d = Some c ->
    In r (canon_rows L d c) -> In r' (canon_rows L d c) -> In r' (filter datums t).
  Proof.
    intros Ht Hr Hc Hcan Hcan'. apply filter_In in Hr. destruct Hr as [Hr Hd].
    pose proof (stored_row_conv cs Hacc tables d c r' Hst Hc Hcan') as Hr'.
    pose proof (canon_In _ _ _ _ Hcan) as (_ & Ed & _). pose proof (canon_In _ _ _ _ Hcan') as (_ & Ed' & _).
    assert (Hrc : In r (List.concat tables)) by (apply in_concat; eauto).
    apply filter_In. split.
    - apply in_concat in Hr'. destruct Hr' as (t' & Ht' & Hr'). destruct Hst as [_ Hal].
      apply In_nth_error in Ht, Ht'. destruct Ht as (i & Hi), Ht' as (j & Hj).
      assert (i = j) by (apply (Hal i j t t' r r'); auto; lia). subst j. congruence.
    - rewrite (Hsel r' d c Hr' Ed' Hc). rewrite (Hsel r d c Hrc Ed Hc) in Hd. exact Hd.
  Qed.

  Variables (g p : string).
  Hypothesis Hg : In g L.
  Hypothesis Hp : In p L.

  Definition cell_datums : list Z :=
    List.concat (map (fun t => map (fun k => fst (fst k))
      (filter (fun k => (snd (fst k) =? idx L g)%Z && (snd k =? idx L p)%Z) (unique_matches m (filter datums t)))) tables).

  Lemma match_row t k : In k (unique_matches m (filter datums t)) <-> exists r, In r (filter datums t) /\ m r = true /\ key3 r = k.
  Proof.
    unfold unique_matches. rewrite isort_In_iff, dkeys_In. split; intros (r & Hr & H & E); exists r; (split; [exact Hr|split; [|exact E]]).
    - rewrite tp_or_misclf in H. exact H.
    - rewrite tp_or_misclf. exact H.
  Qed.

  Lemma cell_datums_NoDup : NoDup cell_datums.
  Proof.
    unfold cell_datums. destruct Hst as [_ Hal].
    assert (G : forall ts, (forall t, In t ts -> In t tables) -> aligned r_datum ts ->
      NoDup (List.concat (map (fun t => map (fun k => fst (fst k))
      (filter (fun k => (snd (fst k) =? idx L g)%Z && (snd k =? idx L p)%Z) (unique_matches m (filter datums t)))) ts))).
    { clear Hal. induction ts as [|t ts IH]; intros Hsub Hal; cbn; [constructor|]. apply NoDup_app_disjoint.
      - apply NoDup_map_on.
        + intros [[a b] c] [[a' b'] c'] H1 H2 E. apply filter_In in H1, H2. cbn in *.
          destruct H1 as [_ H1], H2 as [_ H2]. f_equal; [f_equal|]; lia.
        + apply NoDup_filter, isort_NoDup, dkeys_NoDup.
      - apply IH; [intros; apply Hsub; cbn; auto|]. intros i j ti tj a b Hi Hj Ha Hb E.
        specialize (Hal (S i) (S j) ti tj a b Hi Hj Ha Hb E). lia.
      - intros z H1 H2. apply in_map_iff in H1. destruct H1 as (k & E & H1). apply filter_In in H1. destruct H1 as [H1 _].
        apply match_row in H1. destruct H1 as (r & Hr & _ & Ek). apply in_concat in H2. destruct H2 as (x & Hx & H2).
        apply in_map_iff in Hx. destruct Hx as (t' & <- & Ht'). apply in_map_iff in H2. destruct H2 as (k' & E' & H2).
        apply filter_In in H2. destruct H2 as [H2 _]. apply match_row in H2. destruct H2 as (r' & Hr' & _ & Ek').
        apply filter_In in Hr, Hr'. apply In_nth_error in Ht'. destruct Ht' as (j & Hj).
        specialize (Hal 0 (S j) t t' r r' eq_refl Hj (proj1 Hr) (proj1 Hr')).
        assert (r_datum r = r_datum r'); [|lia]. subst k k'. cbn in *. congruence. }
    apply G; auto.
  Qed.

  Lemma cell_datums_In z : In z cell_datums <->
    exists d c, z = Z.of_nat d /\ nth_error cs d = Some c /\ sel c && (String.eqb (c_groundtruth c) g && smem p (positives hm pass c)) = true.
  Proof.
    unfold cell_datums. rewrite in_concat. split.
    - intros (x & Hx & Hz). apply in_map_iff in Hx. destruct Hx as (t & <- & Ht). apply in_map_iff in Hz.
      destruct Hz as (k & <- & Hk). apply filter_In in Hk. destruct Hk as [Hk Hf]. apply match_row in Hk.
      destruct Hk as (r & Hr & Hmr & <-). destruct (table_row t r Ht Hr) as (d & c & Hc & Hcan & Ed & Hs & _).
      exists d, c. cbn [key3 fst snd] in *. split; [exact Ed|]. split; [exact Hc|]. rewrite Hs. cbn [andb].
      apply andb_true_iff in Hf. destruct Hf as [Hf1 Hf2].
      rewrite (gt_eqb cs d c r g Hc Hcan Hg) in Hf1. rewrite (pd_eqb cs d c r p Hc Hcan Hp) in Hf2. rewrite Hf1. cbn [andb].
      apply smem_In. apply (positive_row cs Hacc hm pass m Hm d c p Hc). exists r. apply String.eqb_eq in Hf2. auto.
    - intros (d & c & -> & Hc & H). rewrite !andb_true_iff, smem_In in H. destruct H as (Hs & Hgt & Hpp).
      apply (positive_row cs Hacc hm pass m Hm d c p Hc) in Hpp. destruct Hpp as (r & Hcan & Hmr & Hpl).
      pose proof (stored_row_conv cs Hacc tables d c r Hst Hc Hcan) as Hr.
      pose proof (canon_In _ _ _ _ Hcan) as (_ & Ed & _).
      pose proof (Hsel r d c Hr Ed Hc) as Hd. rewrite Hs in Hd.
      apply in_concat in Hr. destruct Hr as (t & Ht & Hr).
      eexists. split; [apply in_map_iff; exists t; split; [reflexivity|exact Ht]|].
      apply in_map_iff. exists (key3 r). split; [exact Ed|]. apply filter_In. split.
      + apply match_row. exists r. rewrite filter_In. auto.
      + cbn [key3 fst snd]. rewrite (gt_eqb cs d c r g Hc Hcan Hg), Hgt, (pd_eqb cs d c r p Hc Hcan Hp), Hpl, String.eqb_refl. reflexivity.
  Qed.

  Definition cell_value (z : Z) : option string * option Z :=
    (uid_at z, match nth_error cs (Z.to_nat z) with Some c => score_of p c | None => None end).

  Lemma cell_list :
    List.concat (map (fun t => cell_examples m (filter datums t) (idx L g) (idx L p)) tables) = map cell_value cell_datums.
  Proof.
    unfold cell_datums. rewrite concat_map, map_map. f_equal. apply map_ext_in. intros t Ht. unfold cell_examples.
    rewrite map_map. apply map_ext_in. intros k Hk. apply filter_In in Hk. destruct Hk as [Hk Hf].
    pose proof Hk as Hk0. apply match_row in Hk. destruct Hk as (r & Hr & Hmr & Ek).
    destruct (table_row t r Ht Hr) as (d & c & Hc & Hcan & Ed & Hs & _).
    unfold cell_value. subst k. cbn [key3 fst snd] in *. f_equal; [apply uid_of_table; auto|].
    unfold match_score.
    destruct (find_first (fun r0 => (pc_tp m r0 || pc_misclf m r0) && (if zzz_dec (key3 r0) (key3 r) then true else false)) (filter datums t))
      as (x & Ex & Hx & E).
    { exists r. split; [exact Hr|]. rewrite tp_or_misclf, Hmr. destruct (zzz_dec (key3 r) (key3 r)); [reflexivity|congruence]. }
    change (r_datum r, r_gt r, r_pd r) with (key3 r). rewrite Ex. cbn [option_map].
    apply andb_true_iff in E. destruct E as [_ E]. destruct (zzz_dec (key3 x) (key3 r)) as [Ek|]; [|discriminate].
    destruct (table_row t x Ht Hx) as (d' & c' & Hc' & Hcan' & Ed' & _). unfold key3 in Ek. injection Ek as E1 E2 E3.
    assert (d' = d) by lia. subst d'. rewrite Hc in Hc'. injection Hc' as <-.
    rewrite Ed, Nat2Z.id, Hc. symmetry. apply andb_true_iff in Hf. destruct Hf as [_ Hf2].
    rewrite (pd_eqb cs d c r p Hc Hcan Hp), String.eqb_eq in Hf2.
    assert (Hpx : r_pd_label x = p).
    { apply String.eqb_eq. rewrite <- (pd_eqb cs d c x p Hc Hcan' Hp), E3, (pd_eqb cs d c r p Hc Hcan Hp). apply String.eqb_eq. exact Hf2. }
    apply score_of_distinct.
    - rewrite Forall_forall in Hacc. apply Hacc. eapply nth_error_In; eauto.
    - rewrite Forall_forall in Hdist. apply Hdist. eapply nth_error_In; eauto.
    - pose proof (canon_In _ _ _ _ Hcan') as (_ & _ & _ & _ & _ & Hin & _). rewrite Hpx in Hin. exact Hin.
  Qed.

  Lemma cell_examples_meaning :
    Permutation (List.concat (map (fun t => cell_examples m (filter datums t) (idx L g) (idx L p)) tables))
      (map (fun c => (Some (c_uid c), score_of p c))
        (filter (fun c => sel c && (String.eqb (c_groundtruth c) g && smem p (positives hm pass c))) cs)).
  Proof.
    rewrite cell_list. apply map_indices.
    - apply cell_datums_NoDup.
    - apply cell_datums_In.
    - intros d c Hc _. unfold cell_value, uid_at. rewrite Nat2Z.id, Hc. reflexivity.
  Qed.

  (* ground truths without any prediction *)
  Definition unmatched_datums : list Z :=
    List.concat (map (fun t => map fst (filter (fun k => (snd k =? idx L g)%Z) (unique_unmatched m (filter datums t)))) tables).

  Lemma unmatched_row t k : In k (unique_unmatched m (filter datums t)) <->
    exists r, In r (filter datums t) /\ pc_unmatched m (filter datums t) r = true /\ key2 r = k.
  Proof. unfold unique_unmatched. rewrite isort_In_iff, dkeys_In. reflexivity. Qed.

  Lemma unmatched_datums_NoDup : NoDup unmatched_datums.
  Proof.
    unfold unmatched_datums. destruct Hst as [_ Hal].
    assert (G : forall ts, (forall t, In t ts -> In t tables) -> aligned r_datum ts ->
      NoDup (List.concat (map (fun t => map fst (filter (fun k => (snd k =? idx L g)%Z) (unique_unmatched m (filter datums t)))) ts))).
    { clear Hal. induction ts as [|t ts IH]; intros Hsub Hal; cbn; [constructor|]. apply NoDup_app_disjoint.
      - apply NoDup_map_on.
        + intros [a b] [a' b'] H1 H2 E. apply filter_In in H1, H2. cbn in *. destruct H1 as [_ H1], H2 as [_ H2]. f_equal; lia.
        + apply NoDup_filter, isort_NoDup, dkeys_NoDup.
      - apply IH; [intros; apply Hsub; cbn; auto|]. intros i j ti tj a b Hi Hj Ha Hb E.
        specialize (Hal (S i) (S j) ti tj a b Hi Hj Ha Hb E). lia.
      - intros z H1 H2. apply in_map_iff in H1. destruct H1 as (k & E & H1). apply filter_In in H1. destruct H1 as [H1 _].
        apply unmatched_row in H1. destruct H1 as (r & Hr & _ & Ek). apply in_concat in H2. destruct H2 as (x & Hx & H2).
        apply in_map_iff in Hx. destruct Hx as (t' & <- & Ht'). apply in_map_iff in H2. destruct H2 as (k' & E' & H2).
        apply filter_In in H2. destruct H2 as [H2 _]. apply unmatched_row in H2. destruct H2 as (r' & Hr' & _ & Ek').
        apply filter_In in Hr, Hr'. apply In_nth_error in Ht'. destruct Ht' as (j & Hj).
        specialize (Hal 0 (S j) t t' r r' eq_refl Hj (proj1 Hr) (proj1 Hr')).
        assert (r_datum r = r_datum r'); [|lia]. subst k k'. cbn in *. congruence. }
    apply G; auto.
  Qed.

  Lemma unmatched_iff t r d c : In t tables -> In r (filter datums t) -> nth_error cs d = Some c -> In r (canon_rows L d c) ->
    pc_unmatched m (filter datums t) r = match positives hm pass c with [] => true | _ => false end.
  Proof.
    intros Ht Hr Hc Hcan. unfold pc_unmatched.
    destruct (existsb _ (filter datums t)) eqn:E.
    - apply existsb_exists in E. destruct E as (x & Hx & E). apply andb_true_iff in E. destruct E as [Hmx Hsame].
      destruct (table_row t x Ht Hx) as (d' & c' & Hc' & Hcan' & Ed' & _).
      pose proof (canon_In _ _ _ _ Hcan) as (_ & Ed & _). unfold same_gt in Hsame. rewrite andb_true_iff in Hsame.
      assert (d' = d) by lia. subst d'. rewrite Hc in Hc'. injection Hc' as <-.
      assert (Hin : In (r_pd_label x) (positives hm pass c)).
      { apply (positive_row cs Hacc hm pass m Hm d c _ Hc). eauto. }
      destruct (positives hm pass c); [destruct Hin|reflexivity].
    - destruct (positives hm pass c) as [|q qs] eqn:Eq; [reflexivity|]. exfalso.
      assert (Hin : In q (positives hm pass c)) by (rewrite Eq; left; reflexivity).
      apply (positive_row cs Hacc hm pass m Hm d c q Hc) in Hin. destruct Hin as (x & Hcan' & Hmx & _).
      apply not_true_iff_false in E. apply E. apply existsb_exists. exists x.
      split; [apply (whole_datum t r x d c); auto|]. rewrite Hmx. unfold same_gt.
      pose proof (canon_In _ _ _ _ Hcan) as (_ & Ed & _ & Eg & _). pose proof (canon_In _ _ _ _ Hcan') as (_ & Ed' & _ & Eg' & _).
      rewrite Ed, Ed', Eg, Eg', !Z.eqb_refl. reflexivity.
  Qed.

  Lemma unmatched_examples_meaning :
    Permutation (List.concat (map (fun t => unmatched_examples m (filter datums t) (idx L g)) tables))
      (map (fun c => Some (c_uid c))
        (filter (fun c => sel c && (String.eqb (c_groundtruth c) g && match positives hm pass c with [] => true | _ => false end)) cs)).
  Proof.
    assert (E : List.concat (map (fun t => unmatched_examples m (filter datums t) (idx L g)) tables) = map uid_at unmatched_datums).
    { unfold unmatched_datums. rewrite concat_map, map_map. f_equal. apply map_ext_in. intros t Ht. unfold unmatched_examples.
      rewrite map_map. apply map_ext_in. intros k Hk. apply filter_In in Hk. destruct Hk as [Hk _].
      apply unmatched_row in Hk. destruct Hk as (r & Hr & _ & <-). cbn [key2 fst]. apply uid_of_table; auto. }
    rewrite E. apply map_indices.
    - apply unmatched_datums_NoDup.
    - intros z. unfold unmatched_datums. rewrite in_concat. split.
      + intros (x & Hx & Hz). apply in_map_iff in Hx. destruct Hx as (t & <- & Ht). apply in_map_iff in Hz.
        destruct Hz as (k & <- & Hk). apply filter_In in Hk. destruct Hk as [Hk Hf]. apply unmatched_row in Hk.
        destruct Hk as (r & Hr & Hu & <-). destruct (table_row t r Ht Hr) as (d & c & Hc & Hcan & Ed & Hs & _).
        exists d, c. cbn [key2 fst snd] in *. split; [exact Ed|]. split; [exact Hc|]. rewrite Hs. cbn [andb].
        rewrite (gt_eqb cs d c r g Hc Hcan Hg) in Hf. rewrite Hf, <- (unmatched_iff t r d c Ht Hr Hc Hcan), Hu. reflexivity.
      + intros (d & c & -> & Hc & H). rewrite !andb_true_iff in H. destruct H as (Hs & Hgt & Hpp).
        assert (Ha : accepted c) by (rewrite Forall_forall in Hacc; apply Hacc; eapply nth_error_In; eauto).
        destruct (canon_split L d c Ha) as (pre & r & post & Er & _).
        assert (Hcan : In r (canon_rows L d c)) by (rewrite Er; apply in_app_iff; right; left; reflexivity).
        pose proof (stored_row_conv cs Hacc tables d c r Hst Hc Hcan) as Hr.
        pose proof (canon_In _ _ _ _ Hcan) as (_ & Ed & _).
        pose proof (Hsel r d c Hr Ed Hc) as Hd. rewrite Hs in Hd.
        apply in_concat in Hr. destruct Hr as (t & Ht & Hr).
        assert (Hr' : In r (filter datums t)) by (rewrite filter_In; auto).
        eexists. split; [apply in_map_iff; exists t; split; [reflexivity|exact Ht]|].
        apply in_map_iff. exists (key2 r). split; [exact Ed|]. apply filter_In. split.
        * apply unmatched_row. exists r. rewrite (unmatched_iff t r d c Ht Hr' Hc Hcan). auto.
        * cbn [key2 snd]. rewrite (gt_eqb cs d c r g Hc Hcan Hg). exact Hgt.
    - intros d c Hc _. unfold uid_at. rewrite Nat2Z.id, Hc. reflexivity.
  Qed.
End Cells.
