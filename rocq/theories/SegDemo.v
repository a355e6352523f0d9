(* Concrete segmentation data used in the examples of SegProps.v. *)
From Verif Require Import Prelude Counting CacheModel CacheSpec ClsModel ClsSpec FlowModel DetFlowModel SegModel SegSpec
  SegPixelProofs SegValidProofs SegStoreProofs SegMetricProofs SegMore.
From Coq Require Import QArith String.
Local Open Scope string_scope.
Local Open Scope nat_scope.
Local Open Scope list_scope.

Definition m22 (l : string) (bits : list bool) (m : meta) : bitmask := MkBM l [2; 2]%Z bits m.
(* two 2 x 2 images; "size" is a field of ground truths, "model" of predictions, "day" of datums *)
Definition img1 : segmentation :=
  MkSeg "img1" [m22 "cat" [true; true; false; false] [("size", "big")]; m22 "dog" [false; false; true; false] [("size", "small")]]
               [m22 "cat" [true; false; false; false] [("model", "a")]; m22 "dog" [false; true; true; false] [("model", "b")]]
        [2; 2]%Z 4 [("day", "mon")].
Definition img2 : segmentation :=
  MkSeg "img2" [m22 "cat" [false; false; false; true] [("size", "small")]] [m22 "fox" [true; false; false; true] [("model", "a")]]
        [2; 2]%Z 4 [("day", "tue")].
Definition sdemo : list segmentation := [img1; img2].
Definition sdemo_calls : list scall := [SAdd [img1]; SFinal None; SAdd [img2]].

Definition get_eval (r : fresult seval) : seval := match r with Done e => e | _ => MkSE [] [] end.
Definition sdemo_mem : seval := get_eval (snd (smb_finalize None (smb_run 3 [SAdd sdemo]))).
Definition sdemo_file : seval := get_eval (snd (sfb_finalize None (sfb_run 2 5 sdemo_calls))).

Lemma sdemo_mem_ok : obtained sdemo all_view sdemo_mem.
Proof. apply (ob_memory 3 [SAdd sdemo]). vm_compute. reflexivity. Qed.
Lemma sdemo_file_ok : obtained sdemo all_view sdemo_file.
Proof. apply (ob_files 2 5 sdemo_calls). vm_compute. reflexivity. Qed.

(* decision procedures for the hypotheses *)
Definition disjointb (bs : list bitmask) : bool :=
  forallb (fun ij => Nat.eqb (fst ij) (snd ij) ||
     negb (bany (band (nth (fst ij) (map bm_bits bs) []) (nth (snd ij) (map bm_bits bs) []))))
    (list_prod (seq 0 (List.length bs)) (seq 0 (List.length bs))).
Lemma disjointb_ok N bs : (forall b, In b bs -> List.length (bm_bits b) = N) -> disjointb bs = true -> disjoint_masks bs.
Proof.
  intros HN H i j b b' p Hi Hj Hij Hp Hp'. unfold disjointb in H. rewrite forallb_forall in H.
  assert (Li : i < List.length bs) by (apply nth_error_Some; congruence). assert (Lj : j < List.length bs) by (apply nth_error_Some; congruence).
  specialize (H (i, j)). cbn [fst snd] in H. assert (X : In (i, j) (list_prod (seq 0 (List.length bs)) (seq 0 (List.length bs)))).
  { apply in_prod; apply in_seq; lia. }
  specialize (H X). apply orb_true_iff in H. destruct H as [H|H]; [apply Nat.eqb_eq in H; congruence|].
  apply negb_true_iff in H. apply (bany_false _ p) in H.
  assert (E : forall k c, nth_error bs k = Some c -> nth k (map bm_bits bs) [] = bm_bits c).
  { intros k c Hk. apply nth_error_nth. rewrite nth_error_map, Hk. reflexivity. }
  rewrite (E i b Hi), (E j b' Hj) in H. rewrite nth_band in H.
  - unfold px in *. rewrite Hp, Hp' in H. discriminate.
  - rewrite (HN b (nth_error_In _ _ Hi)), (HN b' (nth_error_In _ _ Hj)). reflexivity.
Qed.
Ltac clean_tac N :=
  split; [split; [reflexivity|cbn; intros b [Hb|Hb]; intuition subst; reflexivity]|];
  split; [apply (disjointb_ok N); [cbn; intros b Hb; intuition subst; reflexivity|reflexivity]|];
  split; [apply (disjointb_ok N); [cbn; intros b Hb; intuition subst; reflexivity|reflexivity]|];
  split; unfold distinct_labels; cbn; repeat constructor; cbn; intuition discriminate.
Lemma img1_clean : clean img1.
Proof. clean_tac 4. Qed.
Lemma img2_clean : clean img2.
Proof. clean_tac 4. Qed.
Lemma sdemo_clean : Forall clean sdemo.
Proof. constructor; [exact img1_clean|constructor; [exact img2_clean|constructor]]. Qed.
Lemma sdemo_countable : countable sdemo.
Proof. reflexivity. Qed.

(* expressions *)
Lemma none_datum ss : datum_expr ss None (fun _ => true).
Proof. intros r k s _ _ _ _. reflexivity. Qed.
Lemma none_gt ss : gt_expr ss None (fun _ _ => true).
Proof. intros r k s l _ _ _ _ _. reflexivity. Qed.
Lemma none_pd ss : pd_expr ss None (fun _ _ => true).
Proof. intros r k s l _ _ _ _ _. reflexivity. Qed.
Lemma field_datum ss f P : ~ gts_use ss f -> ~ pds_use ss f -> datum_expr ss (on_field f P) (fun s => P (meta_get (sg_meta s) f)).
Proof. intros Hg Hp r k s _ _ _ H. cbn. rewrite (H f Hg Hp). reflexivity. Qed.
Lemma field_gt ss f P : ~ pds_use ss f -> gt_expr ss (on_field f P) (fun s l => P (own_meta (sg_gts s) (sg_meta s) l f)).
Proof. intros Hp r k s l _ _ _ _ H. cbn. rewrite (H f Hp). reflexivity. Qed.
Lemma field_pd ss f P : ~ gts_use ss f -> pd_expr ss (on_field f P) (fun s l => P (own_meta (sg_pds s) (sg_meta s) l f)).
Proof. intros Hp r k s l _ _ _ _ H. cbn. rewrite (H f Hp). reflexivity. Qed.
Lemma label_gt ss P : gt_expr ss (on_gt P) (fun _ l => P l).
Proof. intros r k s l _ _ _ E _. cbn. rewrite E. reflexivity. Qed.
Lemma label_pd ss P : pd_expr ss (on_pd P) (fun _ l => P l).
Proof. intros r k s l _ _ _ E _. cbn. rewrite E. reflexivity. Qed.
Lemma uid_datum ss P : datum_expr ss (on_uid P) (fun s => P (sg_uid s)).
Proof. intros r k s _ _ E _. cbn. rewrite E. reflexivity. Qed.
Lemma sdemo_size_gts : ~ pds_use sdemo "size".
Proof. intros (s & Hs & b & Hb & Hf). cbn in Hs. intuition subst; cbn in Hb; intuition subst; cbn in Hf; intuition discriminate. Qed.
Lemma sdemo_model_pds : ~ gts_use sdemo "model".
Proof. intros (s & Hs & b & Hb & Hf). cbn in Hs. intuition subst; cbn in Hb; intuition subst; cbn in Hf; intuition discriminate. Qed.
Lemma sdemo_day : ~ gts_use sdemo "day" /\ ~ pds_use sdemo "day".
Proof. split; intros (s & Hs & b & Hb & Hf); cbn in Hs; intuition subst; cbn in Hb; intuition subst; cbn in Hf; intuition discriminate. Qed.
Definition isv (v : string) (o : option string) : bool := is_label o v.

(* a field used by ground truths and predictions *)
Definition both_fields : segmentation :=
  MkSeg "x" [MkBM "cat" [1; 2]%Z [true; true] [("src", "manual")]] [MkBM "dog" [1; 2]%Z [true; false] []; MkBM "fox" [1; 2]%Z [false; true] [("src", "auto")]]
        [1; 2]%Z 2 [].
Lemma both_clean : clean both_fields.
Proof. clean_tac 2. Qed.
Definition both_mem : seval := get_eval (snd (smb_finalize None (smb_run 8 [SAdd [both_fields]]))).
Lemma both_mem_ok : obtained [both_fields] all_view both_mem.
Proof. apply (ob_memory 8 [SAdd [both_fields]]). vm_compute. reflexivity. Qed.
