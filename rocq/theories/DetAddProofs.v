(* Object detection: predictions below the score threshold, added predictions. *)
From Verif Require Import Prelude Counting CacheModel CacheSpec FlowModel ClsModel ClsLabelProofs
  DetModel DetSpec DetMain DetFlowModel DetReportModel DetEnd DetMore DetPickSpec DetPick DetAddSpec.
From Coq Require Import String Lia QArith.
Local Open Scope nat_scope.
Local Open Scope list_scope.
Local Notation length := List.length (only parsing).

(* ------------------------------------------------------------------ *)
(** * The specification in terms of the overlaps *)

Definition o_meets (eps : Z) (gts : list annotation) (os : list Z) (l : string) : bool :=
  existsb (fun ga => has_label l (snd ga) && (eps <=? nth (fst ga) os 0)%Z) (numbered gts).
Definition o_part (eps : Z) (gts : list annotation) (x : annotation * list Z) (l : string) : bool :=
  o_meets eps gts (snd x) l || forallb (fun l' => negb (o_meets eps gts (snd x) l')) (a_labels (fst x)).
Definition o_picks (gts : list annotation) (os : list Z) (g : nat) (l : string) : bool :=
  forallb (fun ga => negb (has_label l (snd ga)) ||
                     (if Nat.ltb (fst ga) g then (nth (fst ga) os 0 <? nth g os 0)%Z else (nth (fst ga) os 0 <=? nth g os 0)%Z)) (numbered gts).
Definition o_scored (eps s : Z) (l : string) (a : annotation) : bool :=
  existsb (fun ls => String.eqb l (fst ls) && (eps <? snd ls)%Z && (s <=? snd ls)%Z) (combine (a_labels a) (a_scores a)).
Definition o_takes (eps t s : Z) (gts : list annotation) (l : string) (g : nat) (x : annotation * list Z) : bool :=
  o_scored eps s l (fst x) && (eps <=? nth g (snd x) 0)%Z && (t <=? nth g (snd x) 0)%Z && o_picks gts (snd x) g l.
Definition o_counted (eps s : Z) (gts : list annotation) (l : string) (x : annotation * list Z) : nat :=
  countb (fun ls => String.eqb l (fst ls) && ((eps <? snd ls)%Z && (s <=? snd ls)%Z && o_part eps gts x l)) (combine (a_labels (fst x)) (a_scores (fst x))).

Lemma nth_row (f : nat -> Z) n g : g < n -> nth g (map f (seq 0 n)) 0%Z = f g.
Proof. intros H. rewrite nth_indep with (d' := f 0) by (rewrite map_length, seq_length; exact H). rewrite map_nth, seq_nth by exact H. reflexivity. Qed.
Lemma numbered_lt {A} (l : list A) ga : In ga (numbered l) -> fst ga < length l.
Proof. destruct ga as [g a]. intros H. apply numbered_In in H. apply nth_error_Some. cbn. congruence. Qed.
Lemma forallb_ext_in {A} (f g : A -> bool) l : (forall x, In x l -> f x = g x) -> forallb f l = forallb g l.
Proof. induction l as [|a l IH]; intros H; [reflexivity|]. cbn. rewrite (H a) by (left; reflexivity). f_equal. apply IH. intros x Hx. apply H. right. exact Hx. Qed.
Lemma existsb_ext_in {A} (f g : A -> bool) l : (forall x, In x l -> f x = g x) -> existsb f l = existsb g l.
Proof. induction l as [|a l IH]; intros H; [reflexivity|]. cbn. rewrite (H a) by (left; reflexivity). f_equal. apply IH. intros x Hx. apply H. right. exact Hx. Qed.
Lemma existsb_map {A B} (f : A -> B) (P : B -> bool) l : existsb P (map f l) = existsb (fun x => P (f x)) l.
Proof. induction l as [|a l IH]; [reflexivity|]. cbn. rewrite IH. reflexivity. Qed.
Lemma countb_ext_in {A} (f g : A -> bool) l : (forall x, In x l -> f x = g x) -> countb f l = countb g l.
Proof. intros H. unfold countb. f_equal. apply filter_ext_in. exact H. Qed.

Definition row_of (d : detection) (p : nat) : list Z := map (t_iou d p) (seq 0 (length (t_gts d))).
Lemma meets_row eps d p l : o_meets eps (t_gts d) (row_of d p) l = meets eps d p l.
Proof.
  unfold o_meets, meets, row_of. apply existsb_ext_in. intros ga H. apply numbered_lt in H. rewrite nth_row by exact H. reflexivity.
Qed.
Lemma part_row eps d p a l : o_part eps (t_gts d) (a, row_of d p) l = takes_part eps d p a l.
Proof. unfold o_part, takes_part. cbn [fst snd]. rewrite meets_row. f_equal. apply forallb_ext_in. intros x _. rewrite meets_row. reflexivity. Qed.
Lemma picks_row d p g l : g < length (t_gts d) -> o_picks (t_gts d) (row_of d p) g l = picks d p g l.
Proof.
  intros Hg. unfold o_picks, picks, row_of. apply forallb_ext_in. intros ga H. apply numbered_lt in H. rewrite !nth_row by assumption. reflexivity.
Qed.
Lemma picked_overlaps eps t s d l g : g < length (t_gts d) -> picked eps t s d l g = existsb (o_takes eps t s (t_gts d) l g) (overlaps d).
Proof.
  intros Hg. unfold picked, overlaps. rewrite existsb_map. apply existsb_ext_in. intros [p a] _. unfold o_takes. cbn [fst snd].
  change (map (t_iou d p) (seq 0 (length (t_gts d)))) with (row_of d p). rewrite picks_row by exact Hg. unfold row_of at 1 2. rewrite nth_row by exact Hg. reflexivity.
Qed.
Lemma gts_where_picked eps t s sel ds l :
  gts_where sel (fun d g => picked eps t s d l g) ds l
  = list_sum_nat (map (fun d => if sel d then countb (fun ga => has_label l (snd ga) && existsb (o_takes eps t s (t_gts d) l (fst ga)) (overlaps d)) (numbered (t_gts d)) else 0) ds).
Proof.
  unfold gts_where. apply list_sum_nat_ext. intros d _. destruct (sel d); [|reflexivity]. apply countb_ext_in. intros ga H.
  rewrite picked_overlaps by (apply numbered_lt; exact H). reflexivity.
Qed.
Lemma pds_where_counted eps s sel ds l :
  pds_where sel (fun d p a sc => (eps <? sc)%Z && (s <=? sc)%Z && takes_part eps d p a l) ds l
  = list_sum_nat (map (fun d => if sel d then list_sum_nat (map (o_counted eps s (t_gts d) l) (overlaps d)) else 0) ds).
Proof.
  unfold pds_where. apply list_sum_nat_ext. intros d _. destruct (sel d); [|reflexivity]. unfold overlaps. rewrite map_map.
  apply list_sum_nat_ext. intros [p a] _. unfold o_counted. cbn [fst snd]. apply countb_ext_in. intros ls _.
  change (map (t_iou d p) (seq 0 (length (t_gts d)))) with (row_of d p). rewrite part_row. reflexivity.
Qed.

(* ------------------------------------------------------------------ *)
(** * Related data *)

Lemma existsb_filter {A} (f k : A -> bool) l : (forall x, In x l -> f x = true -> k x = true) -> existsb f (filter k l) = existsb f l.
Proof.
  induction l as [|a l IH]; intros H; [reflexivity|]. cbn. assert (X := IH (fun x Hx => H x (or_intror Hx))).
  destruct (k a) eqn:E; cbn; rewrite X; [reflexivity|]. destruct (f a) eqn:Ef; [|reflexivity]. rewrite (H a (or_introl eq_refl) Ef) in E. discriminate.
Qed.
Lemma sum_filter {A} (f : A -> nat) (k : A -> bool) l : (forall x, In x l -> k x = false -> f x = 0) -> list_sum_nat (map f (filter k l)) = list_sum_nat (map f l).
Proof.
  induction l as [|a l IH]; intros H; [reflexivity|]. cbn. assert (X := IH (fun x Hx => H x (or_intror Hx))). unfold list_sum_nat in *.
  destruct (k a) eqn:E; cbn; rewrite X; [reflexivity|]. rewrite (H a (or_introl eq_refl) E). reflexivity.
Qed.
Lemma sum_Forall2 {A B} (P : A -> B -> Prop) (f : A -> nat) (g : B -> nat) l l' :
  Forall2 P l l' -> (forall a b, P a b -> f a = g b) -> list_sum_nat (map f l) = list_sum_nat (map g l').
Proof. intros H E. induction H as [|a b l l' Hab H IH]; [reflexivity|]. cbn. unfold list_sum_nat in IH. rewrite IH, (E a b Hab). reflexivity. Qed.
Lemma sum_Forall2_le {A B} (P : A -> B -> Prop) (f : A -> nat) (g : B -> nat) l l' :
  Forall2 P l l' -> (forall a b, P a b -> f a <= g b) -> list_sum_nat (map f l) <= list_sum_nat (map g l').
Proof. intros H E. induction H as [|a b l l' Hab H IH]; [apply le_n|]. cbn. unfold list_sum_nat in IH. specialize (E a b Hab). lia. Qed.
Lemma countb_le {A} (f g : A -> bool) l : (forall x, In x l -> f x = true -> g x = true) -> countb f l <= countb g l.
Proof.
  intros H. unfold countb. induction l as [|a l IH]; [apply le_n|]. cbn. assert (X := IH (fun x Hx => H x (or_intror Hx))).
  destruct (f a) eqn:E; [rewrite (H a (or_introl eq_refl) E)|destruct (g a)]; cbn; lia.
Qed.

Lemma scored_reaches eps s l a : o_scored eps s l a = true -> existsb (fun sc => (s <=? sc)%Z) (a_scores a) = true.
Proof.
  unfold o_scored. rewrite !existsb_exists. intros ([l' sc] & H & E). apply in_combine_r in H. exists sc. split; [exact H|].
  cbn [fst snd] in E. rewrite !andb_true_iff in E. tauto.
Qed.
Lemma counted_low eps s gts l x : scored_at s x = false -> o_counted eps s gts l x = 0.
Proof.
  intros H. unfold o_counted, countb. rewrite filter_none; [reflexivity|]. intros [l' sc] Hx. apply in_combine_r in Hx. cbn [fst snd].
  destruct (s <=? sc)%Z eqn:E; [|rewrite andb_false_r, andb_false_l, andb_false_r; reflexivity]. exfalso.
  assert (X : scored_at s x = true) by (unfold scored_at; apply existsb_exists; eauto). congruence.
Qed.

Section Low.
  Variables (eps t s : Z) (sel sel' : detection -> bool) (ds ds' : list detection) (l : string).
  Hypothesis H : Forall2 (fun d d' => without_low s d d' /\ sel d = sel' d') ds ds'.
  Lemma low_gts : gts_with sel ds l = gts_with sel' ds' l.
  Proof. unfold gts_with. apply (sum_Forall2 _ _ _ _ _ H). intros d d' ((-> & _) & ->). reflexivity. Qed.
  Lemma low_tp : gts_where sel (fun d g => picked eps t s d l g) ds l = gts_where sel' (fun d g => picked eps t s d l g) ds' l.
  Proof.
    rewrite !gts_where_picked. apply (sum_Forall2 _ _ _ _ _ H). intros d d' ((E1 & E2) & ->). rewrite E1, E2. destruct (sel' d'); [|reflexivity].
    apply countb_ext_in. intros ga _. f_equal. apply existsb_filter. intros x _ Hx. unfold o_takes in Hx. rewrite !andb_true_iff in Hx.
    destruct Hx as [[[Hx _] _] _]. apply scored_reaches in Hx. exact Hx.
  Qed.
  Lemma low_pds : pds_where sel (fun d p a sc => (eps <? sc)%Z && (s <=? sc)%Z && takes_part eps d p a l) ds l
    = pds_where sel' (fun d p a sc => (eps <? sc)%Z && (s <=? sc)%Z && takes_part eps d p a l) ds' l.
  Proof.
    rewrite !pds_where_counted. apply (sum_Forall2 _ _ _ _ _ H). intros d d' ((E1 & E2) & ->). rewrite E1, E2. destruct (sel' d'); [|reflexivity].
    apply sum_filter. intros x _ Hx. apply counted_low. exact Hx.
  Qed.
End Low.

Section More.
  Variables (eps t s : Z) (sel sel' : detection -> bool) (ds ds' : list detection) (l : string).
  Hypothesis H : Forall2 (fun d d' => more_predictions d d' /\ sel d = sel' d') ds ds'.
  Lemma more_gts : gts_with sel ds l = gts_with sel' ds' l.
  Proof. unfold gts_with. apply (sum_Forall2 _ _ _ _ _ H). intros d d' ((-> & _) & ->). reflexivity. Qed.
  Lemma more_tp : gts_where sel (fun d g => picked eps t s d l g) ds l <= gts_where sel' (fun d g => picked eps t s d l g) ds' l.
  Proof.
    rewrite !gts_where_picked. apply (sum_Forall2_le _ _ _ _ _ H). intros d d' ((E1 & E2) & ->). rewrite E1. destruct (sel' d'); [|lia].
    apply countb_le. intros ga _. rewrite !andb_true_iff, !existsb_exists. intros (A & x & B & C). split; [exact A|]. exists x. split; [apply E2; exact B|exact C].
  Qed.
End More.

(* ------------------------------------------------------------------ *)
(** * Reports *)

Lemma qdiv_mono a b n : a <= b -> (qdiv_or_0 a n <= qdiv_or_0 b n)%Q.
Proof.
  intros H. unfold qdiv_or_0. destruct (Nat.ltb_spec 0 n) as [X|X]; [|apply Qle_refl]. unfold Qdiv. apply Qmult_le_compat_r.
  - rewrite <- Zle_Qle. lia.
  - apply Qinv_le_0_compat. change 0%Q with (inject_Z 0). rewrite <- Zle_Qle. lia.
Qed.

Section Reports.
  Variables (eps unit : Z) (ds ds' : list detection) (sel sel' : detection -> bool) (datums datums' : drow -> bool) (e e' : deval).
  Hypothesis Hu : (0 <= unit)%Z.
  Hypothesis Hin : det_input unit ds.
  Hypothesis Hin' : det_input unit ds'.
  Hypothesis Hsel : det_selects ds datums sel.
  Hypothesis Hsel' : det_selects ds' datums' sel'.
  Hypothesis He : det_evaluator eps unit ds e.
  Hypothesis He' : det_evaluator eps unit ds' e'.
  Hypothesis Hfew : few_det_labels ds.
  Hypothesis Hfew' : few_det_labels ds'.
  Hypothesis Hdis : Forall distinct_pd_labels ds.
  Hypothesis Hdis' : Forall distinct_pd_labels ds'.
  Variables (v : string) (vi vi' : nat) (t s : Z).
  Hypothesis Hv : label_no e v vi.
  Hypothesis Hv' : label_no e' v vi'.
  Hypothesis Ht : (0 < t)%Z.

  Lemma low_end : Forall2 (fun d d' => without_low s d d' /\ sel d = sel' d') ds ds' ->
    rep_gts e datums (Z.of_nat vi) = rep_gts e' datums' (Z.of_nat vi') /\
    rep_tp eps e datums t s (Z.of_nat vi) = rep_tp eps e' datums' t s (Z.of_nat vi') /\
    rep_fp eps e datums t s (Z.of_nat vi) = rep_fp eps e' datums' t s (Z.of_nat vi') /\
    rep_fn eps e datums t s (Z.of_nat vi) = rep_fn eps e' datums' t s (Z.of_nat vi') /\
    rep_precision eps e datums t s (Z.of_nat vi) = rep_precision eps e' datums' t s (Z.of_nat vi') /\
    rep_recall eps e datums t s (Z.of_nat vi) = rep_recall eps e' datums' t s (Z.of_nat vi') /\
    rep_f1 eps e datums t s (Z.of_nat vi) = rep_f1 eps e' datums' t s (Z.of_nat vi').
  Proof.
    intros H.
    assert (G : rep_gts e datums (Z.of_nat vi) = rep_gts e' datums' (Z.of_nat vi')).
    { rewrite (end_gts eps unit ds Hin sel datums Hsel e He v vi Hv), (end_gts eps unit ds' Hin' sel' datums' Hsel' e' He' v vi' Hv'). apply (low_gts s _ _ _ _ _ H). }
    assert (T : rep_tp eps e datums t s (Z.of_nat vi) = rep_tp eps e' datums' t s (Z.of_nat vi')).
    { rewrite (pick_end_tp eps unit ds Hin sel datums Hsel e Hu He Hfew v vi Hv t s Ht Hdis),
        (pick_end_tp eps unit ds' Hin' sel' datums' Hsel' e' Hu He' Hfew' v vi' Hv' t s Ht Hdis'). apply (low_tp eps t s _ _ _ _ _ H). }
    assert (N : rep_fp eps e datums t s (Z.of_nat vi) = rep_fp eps e' datums' t s (Z.of_nat vi')).
    { assert (X := end_pd_count eps unit ds Hin sel datums Hsel e Hu He Hfew v vi Hv t s Ht Hdis).
      assert (Y := end_pd_count eps unit ds' Hin' sel' datums' Hsel' e' Hu He' Hfew' v vi' Hv' t s Ht Hdis').
      rewrite (low_pds eps s _ _ _ _ v H) in X. lia. }
    assert (C : rep_counts eps e datums t s (Z.of_nat vi) = rep_counts eps e' datums' t s (Z.of_nat vi')).
    { unfold rep_tp, rep_fp in T, N. destruct (rep_counts eps e datums t s (Z.of_nat vi)), (rep_counts eps e' datums' t s (Z.of_nat vi')). cbn in T, N. congruence. }
    split; [exact G|]. split; [exact T|]. split; [exact N|]. unfold rep_fn, rep_precision, rep_recall, rep_f1. rewrite G, T, C. auto.
  Qed.

  Lemma more_end : Forall2 (fun d d' => more_predictions d d' /\ sel d = sel' d') ds ds' ->
    rep_gts e datums (Z.of_nat vi) = rep_gts e' datums' (Z.of_nat vi') /\
    rep_tp eps e datums t s (Z.of_nat vi) <= rep_tp eps e' datums' t s (Z.of_nat vi') /\
    (rep_recall eps e datums t s (Z.of_nat vi) <= rep_recall eps e' datums' t s (Z.of_nat vi'))%Q.
  Proof.
    intros H.
    assert (G : rep_gts e datums (Z.of_nat vi) = rep_gts e' datums' (Z.of_nat vi')).
    { rewrite (end_gts eps unit ds Hin sel datums Hsel e He v vi Hv), (end_gts eps unit ds' Hin' sel' datums' Hsel' e' He' v vi' Hv'). apply (more_gts _ _ _ _ _ H). }
    assert (T : rep_tp eps e datums t s (Z.of_nat vi) <= rep_tp eps e' datums' t s (Z.of_nat vi')).
    { rewrite (pick_end_tp eps unit ds Hin sel datums Hsel e Hu He Hfew v vi Hv t s Ht Hdis),
        (pick_end_tp eps unit ds' Hin' sel' datums' Hsel' e' Hu He' Hfew' v vi' Hv' t s Ht Hdis'). apply (more_tp eps t s _ _ _ _ _ H). }
    split; [exact G|]. split; [exact T|]. unfold rep_recall, det_recall. rewrite G. unfold rep_tp in T. apply qdiv_mono. exact T.
  Qed.
End Reports.
