(* From add_data / finalize to [stored] tables and a sorted intermediate cache,
   for the in-memory and the file-backed classification caches. *)
From Verif Require Import Prelude CacheModel CacheSpec CacheProofs CacheSizeProofs SortProofs CacheLemmas
  Counting ClsModel ClsSpec ClsLabelProofs ClsProofs RocModel RocProofs RocMain FlowModel.
From Coq Require String.
Local Open Scope nat_scope.
Local Open Scope list_scope.

(* ------------------------------------------------------------------ *)
(** * Labels recovered from rows *)

Definition sound_dict (L : list String.string) (d : dict) : Prop :=
  NoDup (map fst d) /\ forall k v, In (k, v) d -> (0 <= k)%Z /\ nth_error L (Z.to_nat k) = Some v.

Lemma dict_set_keys d k v x : In x (map fst (dict_set d k v)) <-> x = k \/ In x (map fst d).
Proof.
  induction d as [|[k' v'] t IH]; cbn; [intuition congruence|].
  destruct (Z.eqb_spec k k') as [->|N]; cbn; [intuition congruence|]. rewrite IH. intuition congruence.
Qed.
Lemma dict_set_In d k v x : In x (dict_set d k v) -> x = (k, v) \/ In x d.
Proof.
  induction d as [|[k' v'] t IH]; cbn; [intuition congruence|].
  destruct (Z.eqb_spec k k') as [->|N]; cbn; intuition congruence.
Qed.
Lemma dict_set_NoDup d k v : NoDup (map fst d) -> NoDup (map fst (dict_set d k v)).
Proof.
  induction d as [|[k' v'] t IH]; cbn; intros H; [repeat constructor; auto|].
  inversion H; subst. destruct (Z.eqb_spec k k') as [->|N]; cbn; constructor; auto.
  rewrite dict_set_keys. intuition congruence.
Qed.
Lemma sound_set L d k v : sound_dict L d -> (0 <= k)%Z -> nth_error L (Z.to_nat k) = Some v -> sound_dict L (dict_set d k v).
Proof.
  intros [H1 H2] Hk Hv. split; [apply dict_set_NoDup; exact H1|].
  intros k' v' H. apply dict_set_In in H. destruct H as [[= -> ->]|H]; auto.
Qed.
Lemma dict_update_spec L d' : forall d, sound_dict L d ->
  (forall k v, In (k, v) d' -> (0 <= k)%Z /\ nth_error L (Z.to_nat k) = Some v) ->
  sound_dict L (dict_update d d') /\
  (forall x, In x (map fst (dict_update d d')) <-> In x (map fst d) \/ In x (map fst d')).
Proof.
  unfold dict_update. induction d' as [|[k v] t IH]; intros d Hd H; cbn [fold_left map fst snd].
  - split; [exact Hd|]. cbn. tauto.
  - destruct (H k v (or_introl eq_refl)) as [Hk Hv].
    destruct (IH (dict_set d k v)) as [I1 I2]; [apply sound_set; auto|intros; apply H; right; auto|].
    split; [exact I1|]. intros x. rewrite I2, dict_set_keys. cbn. intuition congruence.
Qed.

Definition gt_ok L r := (0 <= r_gt r)%Z /\ nth_error L (Z.to_nat (r_gt r)) = Some (r_gt_label r).
Definition pd_ok L r := (0 <= r_pd r)%Z /\ nth_error L (Z.to_nat (r_pd r)) = Some (r_pd_label r).

Lemma table_labels_spec L idc lbc t :
  (forall r, In r t -> (0 <= idc r)%Z /\ nth_error L (Z.to_nat (idc r)) = Some (lbc r)) ->
  (forall k v, In (k, v) (table_labels idc lbc t) -> (0 <= k)%Z /\ nth_error L (Z.to_nat k) = Some v) /\
  (forall x, In x (map fst (table_labels idc lbc t)) <-> In x (map idc t)).
Proof.
  intros H. unfold table_labels, dict_pop, unique_ids.
  assert (U : forall k, In k (isort Z.leb (nodup Z.eq_dec (map idc t))) <-> In k (map idc t)).
  { intros k. rewrite <- (nodup_In Z.eq_dec (map idc t) k).
    pose proof (isort_perm Z.leb (nodup Z.eq_dec (map idc t))) as P.
    split; intros X; [apply (Permutation_in _ (Permutation_sym P))|apply (Permutation_in _ P)]; exact X. }
  assert (F : forall k, In k (map idc t) -> (0 <= k)%Z /\ nth_error L (Z.to_nat k) = Some (first_label idc lbc t k)).
  { intros k Hk. unfold first_label. destruct (find (fun r => (idc r =? k)%Z) t) as [r|] eqn:E.
    - apply find_some in E. destruct E as [E1 E2]. apply Z.eqb_eq in E2. subst k. apply H. exact E1.
    - apply in_map_iff in Hk. destruct Hk as (r & Er & Hr). pose proof (find_none _ _ E r Hr) as N. cbn in N. lia. }
  split.
  - intros k v Hin. apply filter_In in Hin. destruct Hin as [Hin _]. apply in_map_iff in Hin.
    destruct Hin as (k' & [= -> <-] & Hk). apply F, U, Hk.
  - intros x. split.
    + intros Hx. apply in_map_iff in Hx. destruct Hx as ([k v] & <- & Hin). apply filter_In in Hin.
      destruct Hin as [Hin _]. apply in_map_iff in Hin. destruct Hin as (k' & [= -> <-] & Hk). apply U, Hk.
    + intros Hx. apply in_map_iff. exists (x, first_label idc lbc t x). split; [reflexivity|].
      apply filter_In. split.
      * apply in_map_iff. exists x. split; [reflexivity|]. apply U, Hx.
      * cbn. apply F in Hx. destruct Hx as [Hx _]. apply negb_true_iff, Z.eqb_neq. lia.
Qed.

Lemma extract_labels_gen L tables :
  (forall r, In r (concat tables) -> gt_ok L r /\ pd_ok L r) ->
  sound_dict L (extract_labels tables) /\
  (forall x, In x (map fst (extract_labels tables)) <->
             In x (map r_gt (concat tables)) \/ In x (map r_pd (concat tables))).
Proof.
  unfold extract_labels.
  assert (G : forall ts d, sound_dict L d -> (forall r, In r (concat ts) -> gt_ok L r /\ pd_ok L r) ->
    let d' := fold_left (fun d t => dict_update (dict_update d (table_labels r_gt r_gt_label t))
                            (table_labels r_pd r_pd_label t)) ts d in
    sound_dict L d' /\ (forall x, In x (map fst d') <->
       In x (map fst d) \/ In x (map r_gt (concat ts)) \/ In x (map r_pd (concat ts)))).
  { induction ts as [|t ts IH]; intros d Hd H; cbn [fold_left concat map].
    - split; [exact Hd|]. cbn. tauto.
    - assert (Ht : forall r, In r t -> gt_ok L r /\ pd_ok L r) by (intros; apply H; cbn; apply in_app_iff; auto).
      destruct (table_labels_spec L r_gt r_gt_label t) as [A1 A2]; [intros r Hr; apply (Ht r Hr)|].
      destruct (table_labels_spec L r_pd r_pd_label t) as [B1 B2]; [intros r Hr; apply (Ht r Hr)|].
      destruct (dict_update_spec L _ d Hd A1) as [U1 U2].
      destruct (dict_update_spec L _ _ U1 B1) as [V1 V2].
      destruct (IH _ V1) as [I1 I2]; [intros r Hr; apply H; cbn; apply in_app_iff; auto|].
      split; [exact I1|]. intros x. rewrite I2, V2, U2, A2, B2, !map_app, !in_app_iff. tauto. }
  intros H. destruct (G tables [] ) as [G1 G2]; auto.
  - split; [constructor|intros ? ? []].
  - split; [exact G1|]. intros x. rewrite G2. cbn. tauto.
Qed.

Section Labels.
  Variable cs : list classification.
  Hypothesis Hacc : Forall accepted cs.
  Local Notation L := (labels_of cs).

  Lemma stored_labels tables : stored cs tables -> forall r, In r (concat tables) -> gt_ok L r /\ pd_ok L r.
  Proof.
    intros Hst r Hr. destruct (stored_row cs Hacc tables r Hst Hr) as (d & c & Hc & Hrc & Hin).
    apply canon_In in Hrc. destruct Hrc as (_ & _ & E1 & E2 & E3 & E4 & _).
    pose proof (labels_of_gt cs c Hin) as Ig. pose proof (labels_of_pd cs c _ Hin E4) as Ip. cbn in Ip.
    unfold gt_ok, pd_ok. rewrite E1, E2, E3. repeat split; auto using idx_nth; apply idx_range; auto.
  Qed.

  Lemma extracted tables : stored cs tables ->
    sound_dict L (extract_labels tables) /\
    (forall x, In x (map fst (extract_labels tables)) <-> (0 <= x < Z.of_nat (length L))%Z).
  Proof.
    intros Hst. destruct (extract_labels_gen L tables (stored_labels tables Hst)) as [H1 H2].
    split; [exact H1|]. intros x. split.
    - intros Hx. apply in_map_iff in Hx. destruct Hx as ([k v] & <- & Hx). destruct H1 as [_ H1].
      apply H1 in Hx. destruct Hx as [Hk Hv]. cbn.
      assert (Z.to_nat k < length L) by (apply nth_error_Some; congruence). lia.
    - intros Hx. apply H2.
      destruct (nth_error L (Z.to_nat x)) as [l|] eqn:E; [|apply nth_error_None in E; lia].
      assert (Hi : idx L l = x) by (rewrite (idx_of_nth L l _ (labels_of_NoDup cs) E); lia).
      destruct (labels_of_inv cs l Hacc (nth_error_In _ _ E)) as (c & Hc & Hl).
      destruct (In_nth_error _ _ Hc) as (d & Hd). pose proof (acc_of cs Hacc d c Hd) as Ha.
      destruct Hl as [->|(s & Hs)].
      + left. destruct (canon_split L d c Ha) as (pre & w & post & Ew & _).
        apply in_map_iff. exists w. assert (Hw : In w (canon_rows L d c)) by (rewrite Ew; apply in_app_iff; right; left; reflexivity).
        split; [|eapply stored_row_conv; eauto]. apply canon_In in Hw. destruct Hw as (_ & _ & _ & -> & _). exact Hi.
      + right. destruct (canon_In_conv L d c l s Hs) as (r & Hr & Hrl & _).
        apply in_map_iff. exists r. split; [|eapply stored_row_conv; eauto].
        apply canon_In in Hr. destruct Hr as (_ & _ & _ & _ & -> & _). rewrite Hrl. exact Hi.
  Qed.

  Lemma extracted_get tables : stored cs tables -> forall (i : nat) l,
    dict_get (extract_labels tables) (Z.of_nat i) = Some l <-> nth_error L i = Some l.
  Proof.
    intros Hst i l. destruct (extracted tables Hst) as [[Hn Hs] Hk].
    set (d := extract_labels tables) in *. clearbody d.
    assert (G1 : forall k v, dict_get d k = Some v -> In (k, v) d).
    { clear. induction d as [|[k' v'] t IH]; cbn; [discriminate|]. intros k v.
      destruct (Z.eqb_spec k k') as [->|N]; [intros [= ->]; auto|auto]. }
    assert (G2 : forall k, In k (map fst d) -> exists v, dict_get d k = Some v).
    { clear. induction d as [|[k' v'] t IH]; cbn; [tauto|]. intros k H.
      destruct (Z.eqb_spec k k') as [->|N]; [eauto|]. apply IH. intuition congruence. }
    split.
    - intros H. apply G1, Hs in H. destruct H as [_ H]. rewrite Nat2Z.id in H. exact H.
    - intros H. assert (i < length L) by (apply nth_error_Some; congruence).
      destruct (G2 (Z.of_nat i)) as (v & Hv); [apply Hk; lia|]. rewrite Hv.
      apply G1, Hs in Hv. destruct Hv as [_ Hv]. rewrite Nat2Z.id in Hv. congruence.
  Qed.

  Lemma extracted_keys tables : stored cs tables ->
    Permutation (label_keys (extract_labels tables)) (seq 0 (length L)).
  Proof.
    intros Hst. destruct (extracted tables Hst) as [[Hn Hs] Hk]. unfold label_keys.
    apply NoDup_Permutation; [|apply seq_NoDup|].
    - assert (Hpos : forall k, In k (map fst (extract_labels tables)) -> (0 <= k)%Z) by (intros k H; apply Hk in H; lia).
      rewrite <- (map_map fst Z.to_nat). revert Hn Hpos. generalize (map fst (extract_labels tables)). clear.
      induction l as [|x t IH]; cbn; intros Hn Hp; [constructor|]. inversion Hn; subst. constructor; auto.
      intros Hin. apply in_map_iff in Hin. destruct Hin as (y & E & Hy).
      assert (x = y) by (pose proof (Hp x (or_introl eq_refl)); pose proof (Hp y (or_intror Hy)); lia). subst. contradiction.
    - intros k. rewrite in_seq, <- (map_map fst Z.to_nat), in_map_iff. split.
      + intros (x & E & Hx). apply Hk in Hx. lia.
      + intros H. exists (Z.of_nat k). split; [lia|]. apply Hk. lia.
  Qed.

  Lemma extracted_length tables : stored cs tables -> length (extract_labels tables) = length L.
  Proof.
    intros Hst. pose proof (Permutation_length (extracted_keys tables Hst)) as H.
    unfold label_keys in H. rewrite map_length, seq_length in H. exact H.
  Qed.
End Labels.

(* ------------------------------------------------------------------ *)
(** * add_data calls *)

Lemma add_one_shift L n W c :
  add_one (MkLoader L n W) c =
  option_map (fun l => MkLoader (ld_labels l) (ld_count l) (W ++ ld_writes l)) (add_one (MkLoader L n []) c).
Proof.
  unfold add_one. destruct (c_predictions c); [reflexivity|]. cbn [ld_labels ld_count ld_writes].
  destruct (add_label L (c_groundtruth c)) as [L1 g]. destruct (build_rows _ _ _ _ _ _ _) as [L2 rows]. reflexivity.
Qed.

Lemma add_data_shift cs : forall L n W,
  add_data (MkLoader L n W) cs =
  (let '(l, ok) := add_data (MkLoader L n []) cs in
   (MkLoader (ld_labels l) (ld_count l) (W ++ ld_writes l), ok)).
Proof.
  induction cs as [|c t IH]; intros L n W; cbn [add_data].
  - cbn. rewrite app_nil_r. reflexivity.
  - rewrite add_one_shift. destruct (add_one (MkLoader L n []) c) as [[L1 n1 W1]|] eqn:E; cbn [option_map].
    + cbn [ld_labels ld_count ld_writes]. rewrite (IH L1 n1 (W ++ W1)), (IH L1 n1 W1).
      destruct (add_data (MkLoader L1 n1 []) t) as [l ok]. cbn. rewrite app_assoc. reflexivity.
    + cbn. rewrite app_nil_r. reflexivity.
Qed.

Lemma add_data_prefix cs : forall l, fst (add_data l cs) = fst (add_data l (accepted_prefix cs)).
Proof.
  induction cs as [|c t IH]; intros l; [reflexivity|]. cbn [add_data accepted_prefix]. unfold add_one.
  destruct (c_predictions c) as [|p ps] eqn:E; [reflexivity|]. cbn [add_data]. unfold add_one. rewrite E.
  destruct (add_label (ld_labels l) (c_groundtruth c)) as [L1 g]. destruct (build_rows _ _ _ _ _ _ _) as [L2 rows].
  apply IH.
Qed.

Lemma add_data_app a b l : Forall (fun c => c_predictions c <> []) a ->
  add_data l (a ++ b) = add_data (fst (add_data l a)) b.
Proof.
  revert l. induction a as [|c t IH]; intros l H; [reflexivity|]. inversion H; subst. cbn [app add_data].
  unfold add_one. destruct (c_predictions c) as [|p ps]; [congruence|].
  destruct (add_label (ld_labels l) (c_groundtruth c)) as [L1 g]. destruct (build_rows _ _ _ _ _ _ _) as [L2 rows].
  apply IH. assumption.
Qed.

Lemma prefix_nonempty cs : Forall (fun c => c_predictions c <> []) (accepted_prefix cs).
Proof.
  induction cs as [|c t IH]; cbn; [constructor|]. destruct (c_predictions c) eqn:E; [constructor|].
  constructor; [congruence|exact IH].
Qed.
Lemma prefix_In cs c : In c (accepted_prefix cs) -> In c cs.
Proof.
  induction cs as [|x t IH]; cbn; [auto|]. destruct (c_predictions x); [intros []|]. intros [->|H]; auto.
Qed.
Lemma added_nonempty calls : Forall (fun c => c_predictions c <> []) (added calls).
Proof. unfold added. apply Forall_concat, Forall_map. apply Forall_forall. intros; apply prefix_nonempty. Qed.
Lemma added_accepted calls : Forall (Forall wellformed) calls -> Forall accepted (added calls).
Proof.
  intros H. apply Forall_forall. intros c Hc. split.
  - pose proof (added_nonempty calls) as N. rewrite Forall_forall in N. apply N. exact Hc.
  - unfold added in Hc. apply in_concat in Hc. destruct Hc as (x & Hx & Hc). apply in_map_iff in Hx.
    destruct Hx as (cl & <- & Hcl). apply prefix_In in Hc. rewrite Forall_forall in H. specialize (H _ Hcl).
    rewrite Forall_forall in H. apply H. exact Hc.
Qed.

(* the write calls for an input *)
Definition writes_of (cs : list classification) : list (list crow) := ld_writes (fst (add_data loader_init cs)).
Definition row_ops (ws : list (list crow)) : list (wop crow) := map WriteRows ws.

Lemma fold_mem_rows bs ws : forall s, fold_left (mem_write_rows bs) ws s = fold_left (mem_step bs) (row_ops ws) s.
Proof. induction ws as [|w t IH]; intros s; [reflexivity|]. apply IH. Qed.
Lemma fold_file_rows bs rpf ws : forall s, fold_left (file_write_rows bs rpf) ws s = fold_left (file_step bs rpf) (row_ops ws) s.
Proof. induction ws as [|w t IH]; intros s; [reflexivity|]. apply IH. Qed.

Lemma add_calls_state calls cl :
  let l0 := fst (add_data loader_init (added calls)) in
  let l1 := fst (add_data loader_init (added (calls ++ [cl]))) in
  fst (add_calls (ld_labels l0) (ld_count l0) cl)
  = MkLoader (ld_labels l1) (ld_count l1) (ld_writes (fst (add_calls (ld_labels l0) (ld_count l0) cl)))
  /\ ld_writes l1 = ld_writes l0 ++ ld_writes (fst (add_calls (ld_labels l0) (ld_count l0) cl)).
Proof.
  cbv zeta. unfold add_calls. rewrite (add_data_prefix cl).
  unfold added at 3 4 7. rewrite map_app, concat_app. cbn [map concat]. rewrite app_nil_r. fold (added calls).
  rewrite (add_data_app (added calls)) by apply added_nonempty.
  destruct (fst (add_data loader_init (added calls))) as [L n W]. cbn [ld_labels ld_count ld_writes].
  rewrite (add_data_shift _ L n W). destruct (add_data (MkLoader L n []) (accepted_prefix cl)) as [l ok].
  cbn. destruct l. auto.
Qed.

Lemma mb_adds bs calls :
  fold_left (fun b cl => fst (mb_add bs b cl)) calls mb_init
  = (let l := fst (add_data loader_init (added calls)) in
     MkMB (ld_labels l) (ld_count l) (mem_run bs (row_ops (ld_writes l))) mem_init mem_init).
Proof.
  induction calls as [|cl calls IH] using rev_ind; [reflexivity|].
  rewrite fold_left_app. cbn [fold_left]. rewrite IH. cbv zeta.
  destruct (add_calls_state calls cl) as [H1 H2]. cbv zeta in H1, H2.
  unfold mb_add. cbn [mb_labels mb_count mb_writer mb_inter mb_curve].
  rewrite H2. set (l0 := fst (add_data loader_init (added calls))) in *.
  destruct (add_calls (ld_labels l0) (ld_count l0) cl) as [l ok]. cbn [fst] in *.
  set (l1 := fst (add_data loader_init (added (calls ++ [cl])))) in *.
  rewrite H1. cbn [ld_labels ld_count ld_writes]. f_equal.
  rewrite fold_mem_rows. unfold mem_run, row_ops. rewrite map_app, fold_left_app. reflexivity.
Qed.

Lemma fb_adds bs rpf calls :
  fold_left (fun b cl => fst (fb_add bs rpf b cl)) calls fb_init
  = (let l := fst (add_data loader_init (added calls)) in
     MkFB (ld_labels l) (ld_count l) (file_run bs rpf (row_ops (ld_writes l))) file_init file_init).
Proof.
  induction calls as [|cl calls IH] using rev_ind; [reflexivity|].
  rewrite fold_left_app. cbn [fold_left]. rewrite IH. cbv zeta.
  destruct (add_calls_state calls cl) as [H1 H2]. cbv zeta in H1, H2.
  unfold fb_add. cbn [fb_labels fb_count fb_writer fb_inter fb_curve].
  rewrite H2. set (l0 := fst (add_data loader_init (added calls))) in *.
  destruct (add_calls (ld_labels l0) (ld_count l0) cl) as [l ok]. cbn [fst] in *.
  set (l1 := fst (add_data loader_init (added (calls ++ [cl])))) in *.
  rewrite H1. cbn [ld_labels ld_count ld_writes]. f_equal.
  rewrite fold_file_rows. unfold file_run, row_ops. rewrite map_app, fold_left_app. reflexivity.
Qed.

(* ------------------------------------------------------------------ *)
(** * Alignment *)

Lemma aligned_single {A} (key : A -> Z) t : aligned key [t].
Proof. intros [|i] [|j] ti tj a b Hi Hj; auto; try (destruct i; discriminate); destruct j; discriminate. Qed.

Lemma aligned_cons {A} (key : A -> Z) t ts :
  aligned key (t :: ts) <->
  aligned key ts /\ forall a b, In a t -> In b (concat ts) -> key a <> key b.
Proof.
  split.
  - intros H. split.
    + intros i j ti tj a b Hi Hj Ha Hb E. specialize (H (S i) (S j) ti tj a b Hi Hj Ha Hb E). lia.
    + intros a b Ha Hb E. apply in_concat in Hb. destruct Hb as (x & Hx & Hb). apply In_nth_error in Hx.
      destruct Hx as (j & Hj). specialize (H 0 (S j) t x a b eq_refl Hj Ha Hb E). discriminate.
  - intros [H1 H2] [|i] [|j] ti tj a b Hi Hj Ha Hb E; cbn in *; auto.
    + injection Hi as <-. exfalso. apply (H2 a b Ha); [|exact E]. apply in_concat. exists tj. split; [eapply nth_error_In; eauto|auto].
    + injection Hj as <-. exfalso. apply (H2 b a Hb); [|congruence]. apply in_concat. exists ti. split; [eapply nth_error_In; eauto|auto].
    + f_equal. eapply H1; eauto.
Qed.

Lemma aligned_app {A} (key : A -> Z) g ts :
  aligned key (g ++ ts) -> aligned key ts /\ forall a b, In a (concat g) -> In b (concat ts) -> key a <> key b.
Proof.
  induction g as [|x g IH]; cbn [app]; intros H; [split; [exact H|intros ? ? []]|].
  apply aligned_cons in H. destruct H as [H1 H2]. destruct (IH H1) as [I1 I2]. split; [exact I1|].
  intros a b Ha Hb. cbn in Ha. apply in_app_iff in Ha. destruct Ha as [Ha|Ha]; [|auto].
  apply H2; [exact Ha|]. rewrite concat_app. apply in_app_iff. auto.
Qed.

Lemma aligned_groups {A} (key : A -> Z) (gs : list (list (list A))) :
  aligned key (concat gs) -> aligned key (map (@concat A) gs).
Proof.
  induction gs as [|g t IH]; cbn [concat map]; intros H; [intros [|i] j ti tj a b Hi; discriminate|].
  apply aligned_app in H. destruct H as [H1 H2]. apply aligned_cons. split; [auto|].
  intros a b Ha Hb. rewrite concat_map_concat in Hb. auto.
Qed.

Lemma aligned_perm {A} (key : A -> Z) ts ts' :
  Forall2 (@Permutation A) ts ts' -> aligned key ts -> aligned key ts'.
Proof.
  intros H. induction H as [|t t' ts ts' P F IH]; intros Ha; [exact Ha|].
  apply aligned_cons in Ha. destruct Ha as [H1 H2]. apply aligned_cons. split; [auto|].
  intros a b Ha Hb. apply H2; [apply (Permutation_in _ (Permutation_sym P)); exact Ha|].
  apply in_concat in Hb. destruct Hb as (x & Hx & Hb). clear -F Hx Hb.
  induction F as [|u u' us us' P F IH]; [destruct Hx|]. cbn. apply in_app_iff. destruct Hx as [<-|Hx].
  - left. apply (Permutation_in _ (Permutation_sym P)). exact Hb.
  - right. auto.
Qed.

Lemma concat_perm {A} (ts ts' : list (list A)) : Forall2 (@Permutation A) ts ts' -> Permutation (concat ts) (concat ts').
Proof. induction 1; cbn; [constructor|]. apply Permutation_app; auto. Qed.

(* ------------------------------------------------------------------ *)
(** * finalize *)

Lemma written_rows ws : written (row_ops ws) = concat ws.
Proof. unfold written, row_ops. rewrite map_map. cbn [op_rows]. rewrite map_id. reflexivity. Qed.

Lemma batches_rows_ops ws : Forall (fun w => w <> []) ws -> batches (row_ops ws) = ws.
Proof.
  unfold batches, row_ops. induction 1 as [|w t Hw _ IH]; [reflexivity|]. cbn [map concat].
  rewrite IH. destruct w; [congruence|reflexivity].
Qed.

Lemma sort_perm {A} (sp : sorting A) t : Permutation t (table_sort_by sp t).
Proof. apply isort_perm. Qed.

Section Finalize.
  Variable cs : list classification.
  Hypothesis Hacc : Forall accepted cs.
  Local Notation L := (labels_of cs).

  Lemma writes_nonempty : Forall (fun w => w <> []) (writes_of cs).
  Proof.
    unfold writes_of. rewrite (W_writes cs Hacc). apply Forall_forall. intros w Hw. apply In_nth_error in Hw.
    destruct Hw as (d & Hd). apply (W_inv cs) in Hd. destruct Hd as (c & Hc & ->).
    destruct (canon_split L d c (acc_of cs Hacc d c Hc)) as (pre & x & post & -> & _).
    intros E. apply app_eq_nil in E. destruct E. discriminate.
  Qed.

  Lemma mem_stored bs :
    stored cs [mem_read (mem_sort_by (table_sort_by cls_sorting) (mem_flush (mem_run bs (row_ops (writes_of cs)))))].
  Proof.
    split; [|apply aligned_single]. cbn [concat]. rewrite app_nil_r.
    unfold mem_sort_by, mem_read at 1. unfold mem_flush at 1. cbn [m_buffer m_table].
    rewrite mem_buffer_flush. cbn [m_table]. rewrite <- sort_perm.
    assert (E : m_table (mem_flush (mem_flush (mem_run bs (row_ops (writes_of cs))))) = mem_read (mem_run bs (row_ops (writes_of cs)))).
    { unfold mem_read. unfold mem_flush at 1. rewrite mem_buffer_flush. reflexivity. }
    rewrite E, mem_order; [rewrite written_rows; reflexivity|].
    apply mem_safe_no_table. apply forallb_forall. intros o Ho. unfold row_ops in Ho.
    apply in_map_iff in Ho. destruct Ho as (w & <- & _). reflexivity.
  Qed.

  Lemma mem_rows_count bs : length (m_table (mem_flush (mem_run bs (row_ops (writes_of cs))))) = length (concat (writes_of cs)).
  Proof.
    fold (mem_read (mem_run bs (row_ops (writes_of cs)))). rewrite mem_order; [rewrite written_rows; reflexivity|].
    apply mem_safe_no_table. apply forallb_forall. intros o Ho. unfold row_ops in Ho.
    apply in_map_iff in Ho. destruct Ho as (w & <- & _). reflexivity.
  Qed.

  Lemma rows_zero : length (concat (writes_of cs)) = 0 <-> cs = [].
  Proof.
    split; [|intros ->; reflexivity]. intros H. pose proof writes_nonempty as N. unfold writes_of in *.
    rewrite (W_writes cs Hacc) in *. destruct cs as [|c t]; [reflexivity|]. exfalso. cbn in *.
    rewrite app_length in H. inversion N as [|? ? N1 _]; subst.
    destruct (canon_rows _ _ _); [congruence|cbn in H; lia].
  Qed.

  (* the files of the sorted cache: any listing *)
  Lemma file_flush_idem (s : file_state crow) : f_dir (file_flush (file_flush s)) = f_dir (file_flush s).
  Proof. unfold file_flush. cbn. reflexivity. Qed.

  Lemma file_stored bs rpf listing :
    Permutation listing (f_dir (file_sort_by (table_sort_by cls_sorting) (file_flush (file_run bs rpf (row_ops (writes_of cs)))))) ->
    stored cs (file_tables listing) /\
    file_tables listing
      = file_tables (f_dir (file_sort_by (table_sort_by cls_sorting) (file_flush (file_run bs rpf (row_ops (writes_of cs)))))).
  Proof.
    intros Hp. destruct (ghost_final bs rpf (row_ops (writes_of cs))) as (gs & (Hs & Hm & _) & Hc).
    rewrite batches_rows_ops in Hc by apply writes_nonempty.
    set (s := file_flush (file_run bs rpf (row_ops (writes_of cs)))) in *.
    assert (E : f_dir (file_sort_by (table_sort_by cls_sorting) s)
                = map (fun e => (fst e, table_sort_by cls_sorting (snd e))) (f_dir s)).
    { unfold file_sort_by. cbn [f_dir]. unfold s. rewrite file_flush_idem. reflexivity. }
    rewrite E in *.
    assert (Hs2 : StronglySorted idx_lt (map (fun e => (fst e, table_sort_by cls_sorting (snd e))) (f_dir s))).
    { clear -Hs. induction Hs as [|e d Hs IH Hf]; cbn; constructor; auto. rewrite Forall_map. exact Hf. }
    rewrite (file_tables_listing _ _ Hs2 Hp), (file_tables_listing _ _ Hs2 (Permutation_refl _)).
    split; [|reflexivity]. rewrite map_map. cbn [snd].
    assert (F : Forall2 (@Permutation crow) (map (@concat crow) gs) (map (fun x => table_sort_by cls_sorting (snd x)) (f_dir s))).
    { rewrite <- Hm. clear. induction (f_dir s) as [|e d IH]; cbn; constructor; auto. apply sort_perm. }
    split.
    - rewrite <- (concat_perm _ _ F), concat_map_concat, Hc. reflexivity.
    - apply (aligned_perm _ _ _ F), aligned_groups. rewrite Hc. unfold writes_of.
      rewrite (W_writes cs Hacc). apply W_aligned.
  Qed.

  Lemma file_rows_count bs rpf : file_count_rows (f_dir (file_flush (file_run bs rpf (row_ops (writes_of cs))))) = length (concat (writes_of cs)).
  Proof.
    destruct (ghost_final bs rpf (row_ops (writes_of cs))) as (gs & (Hs & Hm & _) & Hc).
    rewrite batches_rows_ops in Hc by apply writes_nonempty.
    unfold file_count_rows. assert (E : concat (writes_of cs) = concat (map snd (f_dir (file_flush (file_run bs rpf (row_ops (writes_of cs))))))).
    { rewrite Hm, concat_map_concat, Hc. reflexivity. }
    rewrite E, length_concat, map_map. reflexivity.
  Qed.

  Hypothesis Hne : cs <> [].

  (* memory: finalize succeeds, the evaluator holds a stored table, the curve of
     the sorted rows, the label map *)
  Lemma mb_finalize_done bs rb labels count :
    exists b' e inter,
      mb_finalize bs rb (MkMB labels count (mem_run bs (row_ops (writes_of cs))) mem_init mem_init) = (b', Done e)
      /\ stored cs [me_table e]
      /\ me_labels e = extract_labels [me_table e]
      /\ stable_sort_of (row_leb roc_sorting) (map project (me_table e)) inter
      /\ me_curve e = roc_curve (label_keys (me_labels e)) [inter]
      /\ m_table (mb_curve b') = me_curve e
      /\ me_curve e <> []
      /\ m_table (mb_writer b') = me_table e.
  Proof.
    set (w := mem_run bs (row_ops (writes_of cs))).
    unfold mb_finalize. cbn [mb_writer mb_labels mb_count mb_inter mb_curve].
    assert (Hz : Nat.eqb (length (m_table (mem_flush w))) 0 = false).
    { apply Nat.eqb_neq. unfold w. rewrite mem_rows_count. intros H. apply rows_zero in H. contradiction. }
    rewrite Hz. cbn [mem_init m_table length Nat.ltb Nat.leb].
    pose proof (mem_stored bs) as Hst. fold w in Hst.
    set (tbl := mem_read (mem_sort_by (table_sort_by cls_sorting) (mem_flush w))) in *.
    destruct (c08_single roc_sorting bs bs rb (map project tbl)) as (ops & Hops & Hsort).
    rewrite Hops. eexists. eexists. exists (mem_read (mem_flush (fold_left (mem_step bs) ops mem_init))).
    split; [reflexivity|]. cbn [me_table me_curve me_labels mb_curve].
    assert (Hsort' : stable_sort_of (row_leb roc_sorting) (map project tbl) (mem_read (mem_flush (fold_left (mem_step bs) ops mem_init)))).
    { specialize (Hsort bs). unfold mem_read at 1. unfold mem_flush at 1. rewrite mem_buffer_flush. exact Hsort. }
    set (inter := mem_read (mem_flush (fold_left (mem_step bs) ops mem_init))) in *.
    set (curve := roc_curve (label_keys (extract_labels [tbl])) [inter]).
    assert (Ec : mem_read (mem_flush (fold_left (mem_step bs) (curve_ops curve) mem_init)) = curve).
    { unfold mem_read. unfold mem_flush at 1. rewrite mem_buffer_flush.
      change (m_table (mem_flush (fold_left (mem_step bs) (curve_ops curve) mem_init))) with (mem_read (mem_run bs (curve_ops curve))).
      rewrite mem_order.
      - unfold written, curve_ops. rewrite map_map. cbn [op_rows]. clear. induction curve as [|p t IH]; [reflexivity|]. cbn. rewrite IH. reflexivity.
      - apply mem_safe_no_table. apply forallb_forall. intros o Ho. unfold curve_ops in Ho.
        apply in_map_iff in Ho. destruct Ho as (p & <- & _). reflexivity. }
    rewrite Ec. split; [exact Hst|]. split; [reflexivity|]. split; [exact Hsort'|]. split; [reflexivity|].
    split.
    { unfold mem_read in Ec. unfold mem_flush at 1 in Ec. rewrite mem_buffer_flush in Ec. exact Ec. }
    split.
    - apply (curve_nonempty cs Hacc [tbl] Hst [inter]).
      + cbn [concat]. rewrite !app_nil_r. exact Hsort'.
      + apply extracted_keys; auto.
      + exact Hne.
    - unfold tbl, mem_read. unfold mem_flush at 2. unfold mem_sort_by. cbn [m_buffer m_table mb_writer].
      rewrite mem_buffer_flush. reflexivity.
  Qed.

  (* files *)
  Lemma fb_finalize_done bs rpf rb labels count :
    batching_ok rb ->
    exists b' d inter,
      fb_finalize bs rpf rb (MkFB labels count (file_run bs rpf (row_ops (writes_of cs))) file_init file_init) = (b', Done d)
      /\ (forall listing, Permutation listing (f_dir (fb_writer b')) ->
            stored cs (file_tables listing) /\ file_tables listing = fe_tables b')
      /\ d = extract_labels (fe_tables b')
      /\ stable_sort_of (row_leb roc_sorting) (map project (concat (fe_tables b'))) (concat inter)
      /\ (forall listing, Permutation listing (f_dir (fb_curve b')) -> file_tables listing = fe_curve b')
      /\ concat (fe_curve b') = roc_curve (label_keys d) inter
      /\ concat (fe_curve b') <> []
      /\ (exists ops, lists_files bs rpf ops (f_dir (fb_curve b'))).
  Proof.
    intros Hrb. set (w := file_run bs rpf (row_ops (writes_of cs))).
    unfold fb_finalize. cbn [fb_writer fb_labels fb_count fb_inter fb_curve].
    assert (Hz : Nat.eqb (file_count_rows (f_dir (file_flush w))) 0 = false).
    { apply Nat.eqb_neq. unfold w. rewrite file_rows_count. intros H. apply rows_zero in H. contradiction. }
    rewrite Hz. cbn [file_init f_dir file_count_rows map list_sum_nat fold_right Nat.ltb Nat.leb].
    set (w2 := file_sort_by (table_sort_by cls_sorting) (file_flush w)).
    pose proof (fun listing => file_stored bs rpf listing) as Hst. fold w w2 in Hst.
    destruct (Hst (f_dir w2) (Permutation_refl _)) as [Hst0 _].
    destruct (c06_read roc_sorting bs rpf rb (map (map project) (file_tables (f_dir w2))) Hrb) as (ops & Hops & Hsort).
    rewrite Hops. change (MkFile [] None [] 0) with (@file_init irow). change (MkFile [] None [] 0) with (@file_init cpoint).
    set (inter := file_flush (fold_left (file_step bs rpf) ops file_init)).
    set (curve := roc_curve (label_keys (extract_labels (file_tables (f_dir w2)))) (file_tables (f_dir inter))).
    assert (Hs : stable_sort_of (row_leb roc_sorting) (map project (concat (file_tables (f_dir w2)))) (concat (file_tables (f_dir inter)))).
    { rewrite concat_map. apply (Hsort bs rpf). unfold lists_files. reflexivity. }
    assert (Hlc : forall listing, Permutation listing (f_dir (file_flush (fold_left (file_step bs rpf) (curve_ops curve) file_init))) ->
                    lists_files bs rpf (curve_ops curve) listing) by (intros; assumption).
    assert (Hc : concat (file_tables (f_dir (file_flush (fold_left (file_step bs rpf) (curve_ops curve) file_init)))) = curve).
    { rewrite (file_order bs rpf (curve_ops curve)) by (apply Hlc; reflexivity).
      unfold written, curve_ops. rewrite map_map. cbn [op_rows]. clear. induction curve as [|p t IH]; [reflexivity|]. cbn. rewrite IH. reflexivity. }
    eexists. eexists. exists (file_tables (f_dir inter)). split; [reflexivity|].
    unfold fe_tables, fe_curve. cbn [fb_writer fb_curve].
    split; [exact Hst|]. split; [reflexivity|]. split; [exact Hs|].
    split. { intros listing Hp. eapply c05_listing; [apply Hlc; exact Hp|apply Hlc; reflexivity]. }
    split; [exact Hc|]. split.
    { rewrite Hc. apply (curve_nonempty cs Hacc _ Hst0 (file_tables (f_dir inter)) Hs); [|exact Hne].
      apply extracted_keys; auto. }
    exists (curve_ops curve). apply Hlc. reflexivity.
  Qed.
End Finalize.

(* ------------------------------------------------------------------ *)
(** * After a successful finalize *)

Lemma mem_flush_nonempty {A} (s : mem_state A) : m_table s <> [] -> m_table (mem_flush s) <> [].
Proof.
  unfold mem_flush. destruct (m_buffer s); [auto|]. cbn. intros H E. apply app_eq_nil in E. tauto.
Qed.
Lemma mem_rows_nonempty {A} bs (s : mem_state A) r : m_table s <> [] -> m_table (mem_write_rows bs s r) <> [].
Proof.
  intros H. unfold mem_write_rows. destruct r as [|x r]; [exact H|]. unfold mem_write_batch.
  destruct (_ <? _); [exact H|]. destruct (m_buffer s); cbn; intros E; apply app_eq_nil in E; tauto.
Qed.
Lemma length_pos {A} (l : list A) : l <> [] -> Nat.ltb 0 (length l) = true.
Proof. destruct l; [congruence|reflexivity]. Qed.
Lemma length_nz {A} (l : list A) : l <> [] -> Nat.eqb (length l) 0 = false.
Proof. destruct l; [congruence|reflexivity]. Qed.

Definition m_closed (b : mbuilder) : Prop := m_table (mb_writer b) <> [] /\ m_table (mb_curve b) <> [].

Lemma m_closed_add bs b cl : m_closed b -> m_closed (fst (mb_add bs b cl)).
Proof.
  intros [H1 H2]. unfold mb_add. destruct (add_calls _ _ _) as [l ok]. cbn. split; [|exact H2]. cbn.
  generalize (mb_writer b) H1. clear. induction (ld_writes l) as [|w t IH]; intros s H; [exact H|].
  cbn. apply IH. apply mem_rows_nonempty. exact H.
Qed.
Lemma m_closed_finalize bs rb b : m_closed b ->
  snd (mb_finalize bs rb b) = AlreadyFinalized /\ m_closed (fst (mb_finalize bs rb b)).
Proof.
  intros [H1 H2]. unfold mb_finalize. cbv zeta.
  rewrite (length_nz _ (mem_flush_nonempty _ H1)), (length_pos _ H2). cbn. split; [reflexivity|].
  split; [apply mem_flush_nonempty; exact H1|exact H2].
Qed.
Lemma m_closed_calls bs rb calls : forall b, m_closed b -> m_closed (fold_left (mb_call bs rb) calls b).
Proof.
  induction calls as [|[cl|] t IH]; intros b H; cbn [fold_left]; [exact H| |]; apply IH; cbn.
  - apply m_closed_add, H.
  - apply m_closed_finalize, H.
Qed.

Lemma append_file_count {A} (d : dir A) i rows : file_count_rows d <= file_count_rows (append_file d i rows).
Proof.
  unfold file_count_rows, append_file. induction d as [|e d IH]; cbn; [lia|].
  destruct (Nat.eqb (fst e) i); cbn; rewrite ?app_length; unfold list_sum_nat in *; cbn in *; lia.
Qed.
Lemma count_rows_snoc {A} (d : dir A) i : file_count_rows (d ++ [(i, [])]) = file_count_rows d.
Proof. unfold file_count_rows. rewrite map_app, list_sum_nat_app. cbn. lia. Qed.
Lemma file_append_count {A} (s : file_state A) rows : file_count_rows (f_dir s) <= file_count_rows (f_dir (file_append s rows)).
Proof.
  unfold file_append, get_writer. destruct (f_writer s); cbn; [apply append_file_count|].
  etransitivity; [|apply append_file_count]. cbn. rewrite count_rows_snoc. lia.
Qed.
Lemma file_flush_count {A} (s : file_state A) : file_count_rows (f_dir s) <= file_count_rows (f_dir (file_flush s)).
Proof. unfold file_flush. cbn [f_dir]. destruct (f_buffer s); [apply le_n|apply file_append_count]. Qed.
Lemma file_rows_count_le {A} bs rpf (s : file_state A) r : file_count_rows (f_dir s) <= file_count_rows (f_dir (file_write_rows bs rpf s r)).
Proof.
  unfold file_write_rows. destruct r as [|x r]; [lia|]. unfold file_write_batch. cbv zeta. destruct (_ && _); cbn [f_dir]; [apply le_n|].
  match goal with |- context [file_append ?s0 ?r0] => pose proof (file_append_count s0 r0) as Happ; cbn [f_dir] in Happ end.
  match goal with |- context [if ?c then _ else _] => destruct c end; cbn [f_dir]; try exact Happ.
  etransitivity; [exact Happ|]. etransitivity; [|apply file_flush_count]. apply le_n.
Qed.

Definition f_closed (b : fbuilder) : Prop :=
  0 < file_count_rows (f_dir (fb_writer b)) /\ 0 < file_count_rows (f_dir (fb_curve b)).
Lemma f_closed_add bs rpf b cl : f_closed b -> f_closed (fst (fb_add bs rpf b cl)).
Proof.
  intros [H1 H2]. unfold fb_add. destruct (add_calls _ _ _) as [l ok]. cbn. split; [|exact H2]. cbn.
  generalize (fb_writer b) H1. clear. induction (ld_writes l) as [|w t IH]; intros s H; [exact H|].
  cbn. apply IH. pose proof (file_rows_count_le bs rpf s w). lia.
Qed.
Lemma f_closed_finalize bs rpf rb b : f_closed b ->
  snd (fb_finalize bs rpf rb b) = AlreadyFinalized /\ f_closed (fst (fb_finalize bs rpf rb b)).
Proof.
  intros [H1 H2]. unfold fb_finalize. cbv zeta. pose proof (file_flush_count (fb_writer b)).
  destruct (Nat.eqb_spec (file_count_rows (f_dir (file_flush (fb_writer b)))) 0); [lia|].
  destruct (Nat.ltb_spec 0 (file_count_rows (f_dir (fb_curve b)))); [|lia]. cbn [fst snd]. split; [reflexivity|]. split; cbn [fb_writer fb_curve]; lia.
Qed.
Lemma f_closed_calls bs rpf rb calls : forall b, f_closed b -> f_closed (fold_left (fb_call bs rpf rb) calls b).
Proof.
  induction calls as [|[cl|] t IH]; intros b H; cbn [fold_left]; [exact H| |]; apply IH; cbn.
  - apply f_closed_add, H.
  - apply f_closed_finalize, H.
Qed.

(* ------------------------------------------------------------------ *)
(** * The protocol *)

Lemma mb_adds_calls bs rb calls : Forall (Forall wellformed) calls ->
  fold_left (mb_call bs rb) (map Add calls) mb_init
  = MkMB (labels_of (added calls)) (length (added calls)) (mem_run bs (row_ops (writes_of (added calls)))) mem_init mem_init.
Proof.
  intros H.
  assert (E : forall b, fold_left (mb_call bs rb) (map Add calls) b = fold_left (fun b cl => fst (mb_add bs b cl)) calls b).
  { clear. induction calls as [|cl t IH]; intros b; [reflexivity|]. cbn. apply IH. }
  rewrite E, mb_adds. cbv zeta. unfold writes_of. rewrite (loaded (added calls)) by (apply added_accepted; exact H). reflexivity.
Qed.
Lemma fb_adds_calls bs rpf rb calls : Forall (Forall wellformed) calls ->
  fold_left (fb_call bs rpf rb) (map Add calls) fb_init
  = MkFB (labels_of (added calls)) (length (added calls)) (file_run bs rpf (row_ops (writes_of (added calls)))) file_init file_init.
Proof.
  intros H.
  assert (E : forall b, fold_left (fb_call bs rpf rb) (map Add calls) b = fold_left (fun b cl => fst (fb_add bs rpf b cl)) calls b).
  { clear. induction calls as [|cl t IH]; intros b; [reflexivity|]. cbn. apply IH. }
  rewrite E, fb_adds. cbv zeta. unfold writes_of. rewrite (loaded (added calls)) by (apply added_accepted; exact H). reflexivity.
Qed.
