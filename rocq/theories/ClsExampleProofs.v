(* Per-datum examples of the classification evaluator. *)
From Verif Require Import Prelude CacheModel CacheSpec Counting ClsModel ClsSpec ClsLabelProofs ClsProofs ClsConfProofs ClsLemmas ClsMore.
From Coq Require Import String.
Local Open Scope nat_scope.
Local Open Scope list_scope.

Lemma dkeys_const {A K} (dec : forall x y : K, {x = y} + {x <> y}) (key : A -> K) P l k :
  (forall a, In a l -> P a = true -> key a = k) ->
  dkeys dec key P l = if existsb P l then [k] else [].
Proof.
  intros H. pose proof (dkeys_NoDup dec key P l) as Hn.
  assert (Hin : forall x, In x (dkeys dec key P l) -> x = k).
  { intros x Hx. apply dkeys_In in Hx. destruct Hx as (a & Ha & HP & <-). auto. }
  destruct (existsb P l) eqn:E.
  - apply existsb_exists in E. destruct E as (a & Ha & HP).
    assert (Hk : In k (dkeys dec key P l)) by (apply dkeys_In; exists a; auto).
    destruct (dkeys dec key P l) as [|x [|y t]]; [destruct Hk|f_equal; apply Hin; left; reflexivity|].
    exfalso. inversion Hn as [|? ? Hx]; subst. apply Hx. left.
    rewrite (Hin x), (Hin y); cbn; auto.
  - destruct (dkeys dec key P l) as [|x t] eqn:Ed; [reflexivity|]. exfalso.
    assert (In x (dkeys dec key P l)) by (rewrite Ed; left; reflexivity).
    apply dkeys_In in H0. destruct H0 as (a & Ha & HP & _). apply not_true_iff_false in E. apply E.
    apply existsb_exists. eauto.
Qed.

Section Ex.
  Variable cs : list classification.
  Hypothesis Hacc : Forall accepted cs.
  Hypothesis Hfew : few_labels cs.
  Variables (hm : bool) (pass : Z -> bool) (m : crow -> bool).
  Hypothesis Hm : forall r, m r = pass (r_score r) && (if hm then r_winner r else true).
  Local Notation L := (labels_of cs).
  Variables (d : nat) (c : classification) (t : list crow).
  Hypothesis Hc : nth_error cs d = Some c.
  Hypothesis Ht : forall r, In r t /\ r_datum r = Z.of_nat d <-> In r (canon_rows L d c).
  Local Notation mine := (fun r => (r_datum r =? Z.of_nat d)%Z).
  Local Notation gi := (idx L (c_groundtruth c)).

  Lemma mine_row r : In r t -> (r_datum r =? Z.of_nat d)%Z = true -> In r (canon_rows L d c).
  Proof. intros Hr H. apply Ht. split; [exact Hr|lia]. Qed.
  Lemma row_mine r : In r (canon_rows L d c) -> In r t /\ (r_datum r =? Z.of_nat d)%Z = true.
  Proof. intros Hr. apply Ht in Hr. split; [tauto|lia]. Qed.

  Lemma tp_exists : existsb (fun r => pc_tp m r && mine r) t = smem (c_groundtruth c) (positives hm pass c).
  Proof.
    apply eq_true_iff_eq. rewrite existsb_exists, smem_In, <- (positive_row cs Hacc hm pass m Hm d c _ Hc). split.
    - intros (r & Hr & H). rewrite andb_true_iff in H. destruct H as [H Hd]. pose proof (mine_row r Hr Hd) as Hcan.
      unfold pc_tp in H. rewrite andb_true_iff in H. destruct H as [H1 H2].
      destruct (row_match cs Hfew d c r Hc Hcan) as (Em & _). unfold m_match in Em. rewrite Em, String.eqb_eq in H1. eauto.
    - intros (r & Hcan & Hmr & Hl). destruct (row_mine r Hcan) as [Hr Hd]. exists r. split; [exact Hr|].
      destruct (row_match cs Hfew d c r Hc Hcan) as (Em & _). unfold m_match in Em.
      unfold pc_tp. rewrite Em, Hmr, Hl, String.eqb_refl, Hd. reflexivity.
  Qed.

  Lemma ex_tp_meaning : ex_tp (datum_examples m t (Z.of_nat d)) = if smem (c_groundtruth c) (positives hm pass c) then [gi] else [].
  Proof.
    unfold datum_examples. cbn [ex_tp]. rewrite (dkeys_const zzz_dec key3 _ t (Z.of_nat d, gi, gi)).
    - rewrite tp_exists. destruct (smem _ _); reflexivity.
    - intros r Hr H. rewrite andb_true_iff in H. destruct H as [H Hd]. pose proof (mine_row r Hr Hd) as Hcan.
      unfold pc_tp in H. rewrite andb_true_iff in H. destruct H as [H1 H2].
      destruct (row_match cs Hfew d c r Hc Hcan) as (Em & _). unfold m_match in Em. rewrite Em, String.eqb_eq in H1.
      pose proof (canon_In _ _ _ _ Hcan) as (_ & Ed & _ & Eg & Ep & _). unfold key3. rewrite Ed, Eg, Ep, <- H1. reflexivity.
  Qed.

  Lemma misclf_row : forall r, In r t -> pc_misclf m r = true -> (r_datum r =? Z.of_nat d)%Z = true ->
    In (r_pd_label r) (positives hm pass c) /\ r_pd_label r <> c_groundtruth c /\ r_pd r = idx L (r_pd_label r) /\ r_gt r = gi.
  Proof.
    intros r Hr H Hd. pose proof (mine_row r Hr Hd) as Hcan. unfold pc_misclf in H. rewrite andb_true_iff, negb_true_iff in H.
    destruct H as [H1 H2]. destruct (row_match cs Hfew d c r Hc Hcan) as (Em & _). unfold m_match in Em.
    rewrite Em, String.eqb_neq in H1. pose proof (canon_In _ _ _ _ Hcan) as (_ & Ed & _ & Eg & Ep & _).
    split; [apply (positive_row cs Hacc hm pass m Hm d c _ Hc); eauto|]. auto.
  Qed.
  Lemma misclf_conv p : In p (positives hm pass c) -> p <> c_groundtruth c ->
    exists r, In r t /\ pc_misclf m r = true /\ (r_datum r =? Z.of_nat d)%Z = true /\ r_pd_label r = p.
  Proof.
    intros Hp Hn. apply (positive_row cs Hacc hm pass m Hm d c _ Hc) in Hp. destruct Hp as (r & Hcan & Hmr & Hl).
    destruct (row_mine r Hcan) as [Hr Hd]. exists r. split; [exact Hr|]. split; [|auto].
    destruct (row_match cs Hfew d c r Hc Hcan) as (Em & _). unfold m_match in Em. unfold pc_misclf.
    rewrite Em, Hmr, Hl, andb_true_r. apply negb_true_iff, String.eqb_neq. congruence.
  Qed.

  Lemma ex_fp_meaning : NoDup (ex_fp (datum_examples m t (Z.of_nat d)))
    /\ forall x, In x (ex_fp (datum_examples m t (Z.of_nat d))) <->
         exists p, In p (positives hm pass c) /\ p <> c_groundtruth c /\ x = idx L p.
  Proof.
    pose proof ex_tp_meaning as Etp. unfold datum_examples in *. cbn [ex_tp ex_fp] in *. rewrite Etp. clear Etp. split.
    - apply NoDup_filter, NoDup_map_on; [|apply isort_NoDup, dkeys_NoDup].
      intros [a b] [a' b'] H1 H2 E. rewrite isort_In_iff, dkeys_In in H1, H2.
      destruct H1 as (r & _ & H1 & E1), H2 as (r' & _ & H2 & E2). rewrite andb_true_iff in H1, H2.
      injection E1 as <- <-. injection E2 as <- <-. cbn in E. f_equal; [|exact E]. lia.
    - intros x. rewrite filter_In, in_map_iff. split.
      + intros ((k & <- & Hk) & _). rewrite isort_In_iff, dkeys_In in Hk. destruct Hk as (r & Hr & H & <-).
        rewrite andb_true_iff in H. destruct H as [H Hd]. destruct (misclf_row r Hr H Hd) as (H1 & H2 & H3 & _).
        exists (r_pd_label r). cbn. auto.
      + intros (p & Hp & Hn & ->). destruct (misclf_conv p Hp Hn) as (r & Hr & H & Hd & Hl).
        destruct (misclf_row r Hr H Hd) as (_ & _ & H3 & _). split.
        * exists (r_datum r, r_pd r). cbn. split; [congruence|]. rewrite isort_In_iff, dkeys_In. exists r. rewrite H, Hd. auto.
        * apply negb_true_iff. destruct (smem _ _); [|reflexivity]. unfold zmem. cbn. rewrite orb_false_r.
          rewrite idx_eqb; [apply String.eqb_neq; exact Hn| |].
          -- apply (positives_labels hm pass cs c); auto. eapply nth_error_In; eauto.
          -- apply labels_of_gt. eapply nth_error_In; eauto.
  Qed.

  Lemma ex_fn_meaning : ex_fn (datum_examples m t (Z.of_nat d)) = if smem (c_groundtruth c) (positives hm pass c) then [] else [gi].
  Proof.
    pose proof ex_tp_meaning as Etp. unfold datum_examples in *. cbn [ex_tp ex_fn] in *. rewrite Etp. clear Etp.
    rewrite (dkeys_const zz_dec key2 _ t (Z.of_nat d, gi)).
    - destruct (smem (c_groundtruth c) (positives hm pass c)) eqn:Es.
      + destruct (existsb _ t); cbn; rewrite ?Z.eqb_refl; reflexivity.
      + assert (existsb (fun r => (pc_misclf m r || pc_unmatched m t r) && mine r) t = true) as ->; [|reflexivity].
        apply existsb_exists. destruct (positives hm pass c) as [|p ps] eqn:Ep.
        * destruct (canon_split L d c (acc_of cs Hacc d c Hc)) as (pre & r & post & Er & _).
          assert (Hcan : In r (canon_rows L d c)) by (rewrite Er; apply in_app_iff; right; left; reflexivity).
          destruct (row_mine r Hcan) as [Hr Hd]. exists r. split; [exact Hr|]. rewrite Hd, andb_true_r.
          apply orb_true_iff. right. unfold pc_unmatched. apply negb_true_iff, not_true_iff_false.
          rewrite existsb_exists. intros (x & Hx & H). rewrite andb_true_iff in H. destruct H as [Hmx Hs].
          unfold same_gt in Hs. rewrite andb_true_iff in Hs.
          assert (Hcx : In x (canon_rows L d c)) by (apply Ht; split; [exact Hx|lia]).
          assert (In (r_pd_label x) (positives hm pass c)) by (apply (positive_row cs Hacc hm pass m Hm d c _ Hc); eauto).
          rewrite Ep in H. destruct H.
        * destruct (misclf_conv p) as (r & Hr & H & Hd & _).
          -- rewrite Ep. left. reflexivity.
          -- intros ->. unfold smem in Es. cbn in Es. rewrite String.eqb_refl in Es. discriminate.
          -- exists r. split; [exact Hr|]. rewrite H, Hd. reflexivity.
    - intros r Hr H. rewrite andb_true_iff in H. destruct H as [_ Hd]. pose proof (mine_row r Hr Hd) as Hcan.
      pose proof (canon_In _ _ _ _ Hcan) as (_ & Ed & _ & Eg & _). unfold key2. rewrite Ed, Eg. reflexivity.
  Qed.
End Ex.

(* a table of an aligned cache holds all rows of its datums *)
Lemma datum_in_table cs tables t d c r :
  Forall accepted cs -> stored cs tables -> In t tables -> nth_error cs d = Some c ->
  In r t -> r_datum r = Z.of_nat d ->
  forall x, In x t /\ r_datum x = Z.of_nat d <-> In x (canon_rows (labels_of cs) d c).
Proof.
  intros Hacc Hst Ht Hc Hr Hd x. split.
  - intros [Hx Ex]. assert (Hx' : In x (List.concat tables)) by (apply in_concat; eauto).
    destruct (stored_row cs Hacc tables x Hst Hx') as (d' & c' & Hc' & Hcan & _).
    pose proof (canon_In _ _ _ _ Hcan) as (_ & Ed & _). assert (d' = d) by lia. subst d'. congruence.
  - intros Hcan. pose proof (canon_In _ _ _ _ Hcan) as (_ & Ed & _). split; [|exact Ed].
    pose proof (stored_row_conv cs Hacc tables d c x Hst Hc Hcan) as Hx.
    apply in_concat in Hx. destruct Hx as (t' & Ht' & Hx). destruct Hst as [_ Hal].
    apply In_nth_error in Ht, Ht'. destruct Ht as (i & Hi), Ht' as (j & Hj).
    assert (i = j) by (apply (Hal i j t t' r x); auto; lia). subst j. congruence.
Qed.

Lemma uid_of_datum cs tables t d c r :
  Forall accepted cs -> stored cs tables -> In t tables -> nth_error cs d = Some c ->
  In r t -> r_datum r = Z.of_nat d -> uid_of t (Z.of_nat d) = Some (c_uid c).
Proof.
  intros Hacc Hst Ht Hc Hr Hd. unfold uid_of.
  destruct (find_first (fun x => (r_datum x =? Z.of_nat d)%Z) t) as (x & -> & Hx & E).
  { exists r. split; [exact Hr|lia]. }
  assert (Hcan : In x (canon_rows (labels_of cs) d c)) by (apply (datum_in_table cs tables t d c r); auto; split; [exact Hx|lia]).
  pose proof (canon_In _ _ _ _ Hcan) as (Eu & _). cbn. congruence.
Qed.

Lemma unique_ids_In t z : In z (unique_ids r_datum t) <-> exists r, In r t /\ r_datum r = z.
Proof.
  unfold unique_ids. rewrite isort_In_iff, nodup_In, in_map_iff. split; intros (r & H1 & H2); eauto.
Qed.

Lemma combine_nth_In {A B} (a : list A) (b : list B) x y :
  In (x, y) (combine a b) <-> exists k, nth_error a k = Some x /\ nth_error b k = Some y.
Proof.
  revert b. induction a as [|h t IH]; intros [|h' t']; cbn; try (split; [intros []|intros ([|k] & H & H'); discriminate]).
  rewrite IH. split.
  - intros [[= -> ->]|(k & H)]; [exists 0; auto|exists (S k); exact H].
  - intros ([|k] & H & H'); cbn in *; [left; congruence|right; eauto].
Qed.

(* the lists reported for a datum *)
Definition example_ok (cs : list classification) (pos : list string) (c : classification) (ex : datum_example) : Prop :=
  ex_tp ex = (if smem (c_groundtruth c) pos then [idx (labels_of cs) (c_groundtruth c)] else [])
  /\ ex_fn ex = (if smem (c_groundtruth c) pos then [] else [idx (labels_of cs) (c_groundtruth c)])
  /\ NoDup (ex_fp ex)
  /\ (forall x, In x (ex_fp ex) <-> exists p, In p pos /\ p <> c_groundtruth c /\ x = idx (labels_of cs) p).

Lemma example_holds cs tables t d c r tol9 hm thrs k m :
  Forall accepted cs -> few_labels cs -> stored cs tables -> In t tables -> nth_error cs d = Some c ->
  In r t -> r_datum r = Z.of_nat d -> nth_error (masks tol9 hm thrs) k = Some m ->
  example_ok cs (positives hm (pass_cm tol9 (firstn (S k) thrs)) c) c (datum_examples m t (Z.of_nat d)).
Proof.
  intros Hacc Hfew Hst Ht Hc Hr Hd Hk.
  destruct (nth_error thrs k) as [thr|] eqn:Ek.
  2: { apply nth_error_None in Ek. assert (k < List.length (masks tol9 hm thrs)) by (apply nth_error_Some; congruence).
       rewrite masks_length in H. lia. }
  destruct (masks_nth tol9 hm thrs k thr Ek) as (m' & Em & Hm). rewrite Hk in Em. injection Em as <-.
  pose proof (datum_in_table cs tables t d c r Hacc Hst Ht Hc Hr Hd) as Hall.
  set (pass := pass_cm tol9 (firstn (S k) thrs)) in *. unfold example_ok. split; [|split].
  - apply (ex_tp_meaning cs Hacc Hfew hm pass m Hm d c t Hc Hall).
  - apply (ex_fn_meaning cs Hacc Hfew hm pass m Hm d c t Hc Hall).
  - apply (ex_fp_meaning cs Hacc Hfew hm pass m Hm d c t Hc Hall).
Qed.

Lemma examples_sound cs tables tol9 hm thrs e :
  Forall accepted cs -> few_labels cs -> stored cs tables ->
  In e (evaluate_examples tol9 hm thrs tables) ->
  exists d c k thr ex, nth_error cs d = Some c /\ nth_error thrs k = Some thr /\ e = (Some (c_uid c), thr, ex)
    /\ example_ok cs (positives hm (pass_cm tol9 (firstn (S k) thrs)) c) c ex.
Proof.
  intros Hacc Hfew Hst H. unfold evaluate_examples in H. apply in_concat in H. destruct H as (x & Hx & H).
  apply in_map_iff in Hx. destruct Hx as (t & <- & Ht). apply in_concat in H. destruct H as (y & Hy & H).
  apply in_map_iff in Hy. destruct Hy as (z & <- & Hz). apply in_map_iff in H. destruct H as ([m thr] & <- & H).
  apply combine_nth_In in H. destruct H as (k & Hk & Hthr). apply unique_ids_In in Hz. destruct Hz as (r & Hr & Hd).
  assert (Hrc : In r (List.concat tables)) by (apply in_concat; eauto).
  destruct (stored_row cs Hacc tables r Hst Hrc) as (d & c & Hc & Hcan & _).
  pose proof (canon_In _ _ _ _ Hcan) as (_ & Ed & _). rewrite Ed in Hd. subst z.
  exists d, c, k, thr. eexists. split; [exact Hc|]. split; [exact Hthr|]. cbn [fst snd].
  rewrite (uid_of_datum cs tables t d c r) by auto. split; [reflexivity|].
  apply (example_holds cs tables t d c r tol9 hm thrs k m); auto.
Qed.

Lemma examples_complete cs tables tol9 hm thrs d c k thr :
  Forall accepted cs -> few_labels cs -> stored cs tables ->
  nth_error cs d = Some c -> nth_error thrs k = Some thr ->
  exists ex, In (Some (c_uid c), thr, ex) (evaluate_examples tol9 hm thrs tables)
    /\ example_ok cs (positives hm (pass_cm tol9 (firstn (S k) thrs)) c) c ex.
Proof.
  intros Hacc Hfew Hst Hc Hk. destruct (masks_nth tol9 hm thrs k thr Hk) as (m & Em & Hm).
  destruct (canon_split (labels_of cs) d c (acc_of cs Hacc d c Hc)) as (pre & r & post & Er & _).
  assert (Hcan : In r (canon_rows (labels_of cs) d c)) by (rewrite Er; apply in_app_iff; right; left; reflexivity).
  pose proof (stored_row_conv cs Hacc tables d c r Hst Hc Hcan) as Hr. pose proof (canon_In _ _ _ _ Hcan) as (_ & Ed & _).
  apply in_concat in Hr. destruct Hr as (t & Ht & Hr).
  exists (datum_examples m t (Z.of_nat d)). split; [|apply (example_holds cs tables t d c r tol9 hm thrs k m); auto].
  unfold evaluate_examples. apply in_concat. eexists. split; [apply in_map_iff; exists t; split; [reflexivity|exact Ht]|].
  apply in_concat. eexists. split; [apply in_map_iff; exists (Z.of_nat d); split; [reflexivity|apply unique_ids_In; eauto]|].
  apply in_map_iff. exists (m, thr). cbn [fst snd]. rewrite (uid_of_datum cs tables t d c r) by auto. split; [reflexivity|].
  apply combine_nth_In. eauto.
Qed.

Lemma list_sum_length_concat {A B} (f : A -> list B) l :
  List.length (List.concat (map f l)) = list_sum_nat (map (fun x => List.length (f x)) l).
Proof. rewrite length_concat, map_map. reflexivity. Qed.

(* one entry per datum and threshold *)
Lemma examples_length cs tables tol9 hm thrs :
  Forall accepted cs -> stored cs tables ->
  List.length (evaluate_examples tol9 hm thrs tables) = List.length cs * List.length thrs.
Proof.
  intros Hacc Hst. unfold evaluate_examples. rewrite list_sum_length_concat.
  rewrite <- (countb_true (fun _ => true) cs) by reflexivity.
  rewrite <- (counts_datums cs Hacc tables (fun _ => true) (fun _ => true) Hst (selects_all cs tables)).
  unfold extract_counts.
  assert (G : forall ts : list (list crow), list_sum_nat (map (fun t => List.length (List.concat
      (map (fun d => map (fun mt => (uid_of t d, snd mt, datum_examples (fst mt) t d)) (combine (masks tol9 hm thrs) thrs)) (unique_ids r_datum t)))) ts)
    = list_sum_nat (map (fun t => List.length (nodup Z.eq_dec (map r_datum (filter (fun _ => true) t)))) ts) * List.length thrs).
  { induction ts as [|t ts IH]; [reflexivity|]. cbn [map]. unfold list_sum_nat in *. cbn [fold_right]. rewrite IH, Nat.mul_add_distr_r. f_equal.
    rewrite list_sum_length_concat, filter_true_id.
    rewrite (list_sum_nat_ext _ (fun _ => List.length thrs)).
    - transitivity (List.length (unique_ids r_datum t) * List.length thrs).
      + induction (unique_ids r_datum t) as [|a l IHl]; [reflexivity|]. cbn. unfold list_sum_nat in IHl. rewrite IHl. reflexivity.
      + f_equal. unfold unique_ids. symmetry. apply Permutation_length, isort_perm.
    - intros z _. rewrite map_length, combine_length, masks_length. apply Nat.min_id. }
  apply G.
Qed.

Lemma label_at_idx cs l : In l (labels_of cs) -> label_at cs (idx (labels_of cs) l) = Some l.
Proof.
  intros H. unfold label_at. pose proof (idx_range _ _ H). destruct (Z.ltb_spec (idx (labels_of cs) l) 0); [lia|].
  apply idx_nth. exact H.
Qed.

Lemma example_ok_meaning cs hm pass c ex : Forall accepted cs -> In c cs ->
  example_ok cs (positives hm pass c) c ex -> example_meaning cs (positives hm pass c) c ex.
Proof.
  intros Hacc Hc (H1 & H2 & H3 & H4). unfold example_meaning.
  pose proof (label_at_idx cs _ (labels_of_gt cs c Hc)) as Hg.
  assert (Hl : forall p, In p (positives hm pass c) -> label_at cs (idx (labels_of cs) p) = Some p).
  { intros p Hp. apply label_at_idx. apply (positives_labels hm pass cs c); auto. }
  split; [|split; [|split]].
  - rewrite H1. destruct (smem _ _); cbn; rewrite ?Hg; reflexivity.
  - rewrite H2. destruct (smem _ _); cbn; rewrite ?Hg; reflexivity.
  - apply NoDup_map_on; [|exact H3]. intros x y Hx Hy E. apply H4 in Hx, Hy.
    destruct Hx as (p & Hp & _ & ->), Hy as (q & Hq & _ & ->). rewrite (Hl p Hp), (Hl q Hq) in E. congruence.
  - intros o. rewrite in_map_iff. split.
    + intros (x & <- & Hx). apply H4 in Hx. destruct Hx as (p & Hp & Hn & ->). exists p. rewrite (Hl p Hp). auto.
    + intros (p & -> & Hp & Hn). exists (idx (labels_of cs) p). split; [apply Hl; exact Hp|]. apply H4. eauto.
Qed.
