(* The loader protocol for arbitrary call histories, and degenerate ROCAUC values. *)
From Verif Require Import Prelude CacheModel CacheSpec CacheProofs Counting ClsModel RocModel ClsSpec ClsLabelProofs ClsProofs
  RocProofs RocMain FlowModel FlowProofs.
From Coq Require Import QArith Lqa.
Local Open Scope nat_scope.
Local Open Scope list_scope.

(* the add_data calls of a history *)
Definition adds_of (h : list call) : list (list classification) :=
  concat (map (fun c => match c with Add cs => [cs] | Finalize => [] end) h).
(* everything added by a history *)
Definition data_of (h : list call) : list classification := added (adds_of h).
(* no finalize so far had data *)
Definition still_open (h : list call) : Prop := forall p q, h = p ++ Finalize :: q -> data_of p = [].
(* one score per candidate in everything ever added *)
Definition wellformed_calls (h : list call) : Prop := Forall (Forall wellformed) (adds_of h).

Lemma adds_app a b : adds_of (a ++ b) = adds_of a ++ adds_of b.
Proof. unfold adds_of. rewrite map_app, concat_app. reflexivity. Qed.
Lemma data_app_finalize h : data_of (h ++ [Finalize]) = data_of h.
Proof. unfold data_of. rewrite adds_app. cbn. rewrite app_nil_r. reflexivity. Qed.
Lemma adds_map_Add cl : adds_of (map Add cl) = cl.
Proof. unfold adds_of. rewrite map_map. induction cl as [|c t IH]; [reflexivity|]. cbn. f_equal. exact IH. Qed.

Lemma still_open_app h c : still_open (h ++ [c]) -> still_open h.
Proof. intros H p q ->. apply (H p (q ++ [c])). rewrite <- app_assoc. reflexivity. Qed.
Lemma still_open_add h cl : still_open h -> still_open (h ++ [Add cl]).
Proof.
  intros H p q E. destruct q as [|x q] using rev_ind.
  - apply app_inj_tail in E. destruct E; discriminate.
  - rewrite app_comm_cons, app_assoc in E. apply app_inj_tail in E. destruct E as [E _]. exact (H _ _ E).
Qed.
Lemma still_open_finalize h : still_open h -> data_of h = [] -> still_open (h ++ [Finalize]).
Proof.
  intros H Hd p q E. destruct q as [|x q] using rev_ind.
  - apply app_inj_tail in E. destruct E as [<- _]. exact Hd.
  - rewrite app_comm_cons, app_assoc in E. apply app_inj_tail in E. destruct E as [E _]. exact (H _ _ E).
Qed.
Lemma still_open_nil : still_open [].
Proof. intros [|? ?] q; discriminate. Qed.

Lemma open_or_closed h : still_open h \/ exists p q, h = p ++ Finalize :: q /\ still_open p /\ data_of p <> [].
Proof.
  induction h as [|c h IH] using rev_ind; [left; apply still_open_nil|].
  destruct IH as [IH|(p & q & -> & Hp & Hd)].
  - destruct c as [cl|]; [left; apply still_open_add, IH|].
    destruct (data_of h) as [|d t] eqn:E; [left; apply still_open_finalize; auto|].
    right. exists h, []. rewrite E. split; [reflexivity|]. split; [exact IH|discriminate].
  - right. exists p, (q ++ [c]). rewrite <- app_assoc. auto.
Qed.

Definition m_open_state (bs : nat) (h : list call) : mbuilder :=
  MkMB (labels_of (data_of h)) (length (data_of h)) (mem_run bs (row_ops (writes_of (data_of h)))) mem_init mem_init.
Definition f_open_state (bs rpf : nat) (h : list call) : fbuilder :=
  MkFB (labels_of (data_of h)) (length (data_of h)) (file_run bs rpf (row_ops (writes_of (data_of h)))) file_init file_init.

Lemma wf_app a b : wellformed_calls (a ++ b) -> wellformed_calls a.
Proof. unfold wellformed_calls. rewrite adds_app, Forall_app. tauto. Qed.

Lemma m_open bs rb h : wellformed_calls h -> still_open h ->
  fold_left (mb_call bs rb) h mb_init = m_open_state bs h.
Proof.
  intros Hw. induction h as [|c h IH] using rev_ind; intros Ho; [reflexivity|].
  rewrite fold_left_app. cbn [fold_left]. rewrite IH by (try (eapply wf_app; eassumption); eapply still_open_app; eassumption).
  destruct c as [cl|].
  - unfold m_open_state, data_of. rewrite <- (mb_adds_calls bs rb (adds_of h)) by (eapply wf_app; eassumption).
    unfold wellformed_calls in Hw. rewrite <- (mb_adds_calls bs rb (adds_of (h ++ [Add cl]))) by exact Hw.
    rewrite adds_app. cbn [adds_of map concat app]. rewrite map_app, fold_left_app. reflexivity.
  - unfold m_open_state. rewrite data_app_finalize. pose proof (Ho h [] eq_refl) as E. rewrite E. reflexivity.
Qed.
Lemma f_open bs rpf rb h : wellformed_calls h -> still_open h ->
  fold_left (fb_call bs rpf rb) h fb_init = f_open_state bs rpf h.
Proof.
  intros Hw. induction h as [|c h IH] using rev_ind; intros Ho; [reflexivity|].
  rewrite fold_left_app. cbn [fold_left]. rewrite IH by (try (eapply wf_app; eassumption); eapply still_open_app; eassumption).
  destruct c as [cl|].
  - unfold f_open_state, data_of. rewrite <- (fb_adds_calls bs rpf rb (adds_of h)) by (eapply wf_app; eassumption).
    unfold wellformed_calls in Hw. rewrite <- (fb_adds_calls bs rpf rb (adds_of (h ++ [Add cl]))) by exact Hw.
    rewrite adds_app. cbn [adds_of map concat app]. rewrite map_app, fold_left_app. reflexivity.
  - unfold f_open_state. rewrite data_app_finalize. pose proof (Ho h [] eq_refl) as E. rewrite E. reflexivity.
Qed.

Lemma data_accepted h : wellformed_calls h -> Forall accepted (data_of h).
Proof. apply added_accepted. Qed.

Lemma data_nil_open h : data_of h = [] -> still_open h.
Proof.
  intros H p q ->. unfold data_of, added in *. rewrite adds_app, map_app, concat_app in H.
  apply app_eq_nil in H. tauto.
Qed.

(* what finalize does after any history, memory *)
Lemma m_finalize_empty bs rb h : wellformed_calls h -> data_of h = [] ->
  snd (mb_finalize bs rb (fold_left (mb_call bs rb) h mb_init)) = EmptyCache.
Proof.
  intros Hw H. rewrite m_open; [|exact Hw|apply data_nil_open; exact H]. unfold m_open_state. rewrite H. reflexivity.
Qed.
Lemma f_finalize_empty bs rpf rb h : wellformed_calls h -> data_of h = [] ->
  snd (fb_finalize bs rpf rb (fold_left (fb_call bs rpf rb) h fb_init)) = EmptyCache.
Proof.
  intros Hw H. rewrite f_open; [|exact Hw|apply data_nil_open; exact H]. unfold f_open_state. rewrite H. reflexivity.
Qed.

Lemma m_closed_after bs rb h : wellformed_calls h -> still_open h -> data_of h <> [] ->
  m_closed (fold_left (mb_call bs rb) (h ++ [Finalize]) mb_init).
Proof.
  intros Hw Ho Hd. rewrite fold_left_app, (m_open bs rb h Hw Ho). cbn [fold_left mb_call].
  destruct (mb_finalize_done (data_of h) (data_accepted h Hw) Hd bs rb (labels_of (data_of h)) (length (data_of h)))
    as (b' & e & inter & E & Hst & _ & _ & _ & Hcw & Hne & Hwt).
  unfold m_open_state. rewrite E. cbn [fst]. split; [|rewrite Hcw; exact Hne].
  rewrite Hwt. intros Hz. destruct Hst as [Hp _]. cbn [concat] in Hp. rewrite app_nil_r, Hz in Hp.
  apply Permutation_nil in Hp.
  pose proof (rows_zero (data_of h) (data_accepted h Hw)) as [Z _]. apply Hd, Z. unfold writes_of. rewrite Hp. reflexivity.
Qed.
Lemma f_closed_after bs rpf rb h : batching_ok rb -> wellformed_calls h -> still_open h -> data_of h <> [] ->
  f_closed (fold_left (fb_call bs rpf rb) (h ++ [Finalize]) fb_init).
Proof.
  intros Hrb Hw Ho Hd. rewrite fold_left_app, (f_open bs rpf rb h Hw Ho). cbn [fold_left fb_call].
  destruct (fb_finalize_done (data_of h) (data_accepted h Hw) Hd bs rpf rb (labels_of (data_of h)) (length (data_of h)) Hrb)
    as (b' & d & inter & E & Hst & _ & _ & _ & _ & Hne & _).
  unfold f_open_state. rewrite E. cbn [fst]. destruct (Hst _ (Permutation_refl _)) as [[Hp _] _].
  assert (G : forall A (dd : dir A), concat (file_tables dd) <> [] -> 0 < file_count_rows dd).
  { clear. intros A dd H. destruct (file_count_rows dd) eqn:E; [|lia]. exfalso. apply H. unfold file_tables.
    assert (X : forall e, In e dd -> snd e = []).
    { intros e He. unfold file_count_rows in E. apply in_split in He. destruct He as (a & b & ->).
      rewrite map_app, list_sum_nat_app in E. cbn in E. destruct (snd e); [reflexivity|cbn in E; lia]. }
    apply concat_nil_Forall. apply Forall_map. apply Forall_forall. intros e He. apply X.
    eapply Permutation_in; [|exact He]. apply Permutation_sym, isort_perm. }
  split; apply G; [|exact Hne]. intros Hz. rewrite Hz in Hp. apply Permutation_nil in Hp.
  pose proof (rows_zero (data_of h) (data_accepted h Hw)) as [Z _]. apply Hd, Z. unfold writes_of. rewrite Hp. reflexivity.
Qed.

Lemma m_finalize_again bs rb h : wellformed_calls h -> ~ still_open h ->
  snd (mb_finalize bs rb (fold_left (mb_call bs rb) h mb_init)) = AlreadyFinalized.
Proof.
  intros Hw Hn. destruct (open_or_closed h) as [H|(p & q & -> & Hp & Hd)]; [contradiction|].
  apply m_closed_finalize. replace (p ++ Finalize :: q) with ((p ++ [Finalize]) ++ q) by (rewrite <- app_assoc; reflexivity).
  rewrite fold_left_app. apply m_closed_calls. apply m_closed_after; auto. eapply wf_app; exact Hw.
Qed.
Lemma f_finalize_again bs rpf rb h : batching_ok rb -> wellformed_calls h -> ~ still_open h ->
  snd (fb_finalize bs rpf rb (fold_left (fb_call bs rpf rb) h fb_init)) = AlreadyFinalized.
Proof.
  intros Hrb Hw Hn. destruct (open_or_closed h) as [H|(p & q & -> & Hp & Hd)]; [contradiction|].
  apply f_closed_finalize. replace (p ++ Finalize :: q) with ((p ++ [Finalize]) ++ q) by (rewrite <- app_assoc; reflexivity).
  rewrite fold_left_app. apply f_closed_calls. apply f_closed_after; auto. eapply wf_app; exact Hw.
Qed.

(* ------------------------------------------------------------------ *)
(** * ROCAUC of a label without positives or without negatives *)

Lemma rate_zero n : rate n 0 = 0%Q.
Proof. reflexivity. Qed.
Lemma trapezoid_x0 l : Forall (fun p : Q * Q => fst p == 0)%Q l -> (trapezoid l == 0)%Q.
Proof.
  induction 1 as [|a t Ha Ht IH]; [reflexivity|]. cbn [trapezoid]. destruct t as [|b t]; [reflexivity|].
  inversion Ht; subst. rewrite IH, Ha, H1. field.
Qed.
Lemma trapezoid_y0 l : Forall (fun p : Q * Q => snd p == 0)%Q l -> (trapezoid l == 0)%Q.
Proof.
  induction 1 as [|a t Ha Ht IH]; [reflexivity|]. cbn [trapezoid]. destruct t as [|b t]; [reflexivity|].
  inversion Ht; subst. rewrite IH, Ha, H1. field.
Qed.
Lemma rocauc_degenerate gtc pdc i files :
  pdc = 0%Z \/ gtc = 0%Z \/ (pdc - gtc = 0)%Z -> (rocauc_label gtc pdc i files == 0)%Q.
Proof.
  intros H. unfold rocauc_label.
  assert (G : forall l acc, (fst acc == 0)%Q -> (fst (fold_left (rocauc_step gtc pdc) l acc) == 0)%Q).
  { induction l as [|pts l IH]; intros [area prev] Ha; [exact Ha|]. cbn [fold_left]. apply IH.
    unfold rocauc_step. destruct pts as [|p t]; [exact Ha|]. destruct (Z.eqb_spec pdc 0); [exact Ha|].
    cbv zeta. destruct (Nat.eqb _ 1); [exact Ha|]. cbn [fst] in *. rewrite Ha.
    destruct H as [H|[->|H]]; [contradiction| |].
    - rewrite trapezoid_y0; [reflexivity|]. apply Forall_map, Forall_forall. intros x _. reflexivity.
    - rewrite H, Zmod_0_l. rewrite trapezoid_x0; [reflexivity|]. apply Forall_map, Forall_forall. intros x _. reflexivity. }
  apply G. reflexivity.
Qed.

Lemma nth_error_seq_lt i n : i < n -> nth_error (seq 0 n) i = Some i.
Proof. intros H. rewrite (nth_error_nth' (seq 0 n) 0) by (rewrite seq_length; exact H). rewrite seq_nth by exact H. reflexivity. Qed.
