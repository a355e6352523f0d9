(* What an evaluator's tables say about the data: invariants kept by filter. *)
From Verif Require Import Prelude Counting CacheModel CacheSpec ClsModel ClsSpec ClsLabelProofs FlowModel DetFlowModel DetFlowProofs SegModel SegSpec SegPixelProofs SegProofs.
From Coq Require Import QArith String.
Local Open Scope nat_scope.
Local Open Scope list_scope.

Definition base (ss : list segmentation) : list srow := List.concat (writes_from [] 0 ss).

(* ------------------------------------------------------------------ sizes *)
Lemma total_nonneg ss : Forall clean ss -> (0 <= total_pixels ss)%Z.
Proof.
  unfold total_pixels, zsum. induction 1 as [|s ss Hs _ IH]; cbn; [lia|].
  destruct Hs as ([Hs _] & _). lia.
Qed.
Lemma countable_each ss : Forall clean ss -> countable ss -> Forall (fun s => (sg_size s < 2 ^ 64)%Z) ss.
Proof.
  unfold countable. intros H. induction H as [|s ss Hs Ht IH]; intros Hc; constructor.
  - pose proof (total_nonneg ss Ht). unfold total_pixels, zsum in *. cbn in Hc. lia.
  - apply IH. destruct Hs as ([Hs _] & _). unfold total_pixels, zsum in *. cbn in Hc. lia.
Qed.
Lemma npix_bound ss P : Forall clean ss -> (Z.of_nat (npix ss P) <= total_pixels ss)%Z.
Proof.
  unfold npix, total_pixels, zsum, list_sum_nat. induction 1 as [|s ss Hs _ IH]; [cbn; lia|]. cbn [map fold_right].
  destruct Hs as ([Hs _] & _). pose proof (countb_small (P s) (Z.to_nat (sg_size s))) as B.
  fold (pixels s) in B. lia.
Qed.
Lemma npix_filter ss f P : npix (filter f ss) P = npix ss (fun s p => f s && P s p).
Proof.
  unfold npix. induction ss as [|s ss IH]; [reflexivity|]. cbn [filter map list_sum_nat fold_right].
  destruct (f s); cbn [map fold_right andb].
  - unfold list_sum_nat in IH. rewrite IH. reflexivity.
  - unfold list_sum_nat in IH. rewrite IH. rewrite countb_false by reflexivity. reflexivity.
Qed.
Lemma npix_ext ss P P' : (forall s p, In s ss -> In p (pixels s) -> P s p = P' s p) -> npix ss P = npix ss P'.
Proof. intros H. unfold npix. apply list_sum_nat_ext. intros s Hs. apply countb_ext. auto. Qed.
Lemma npix_true ss : Forall clean ss -> Z.of_nat (npix ss (fun _ _ => true)) = total_pixels ss.
Proof.
  unfold npix, total_pixels, zsum, list_sum_nat. induction 1 as [|s ss Hs _ IH]; [reflexivity|]. cbn [map fold_right].
  destruct Hs as ([Hs _] & _). rewrite countb_true by reflexivity. unfold pixels at 1. rewrite seq_length. lia.
Qed.

(* ------------------------------------------------------------------ rows of a data set *)
Lemma base_datum ss : forall L k r, In r (List.concat (writes_from L k ss)) ->
  exists i s L', nth_error ss i = Some s /\ In r (drows L' (k + i) s)
    /\ L' = first_appearance L (List.concat (map seg_datum_labels (firstn (S i) ss)))
    /\ extends L' (first_appearance L (List.concat (map seg_datum_labels ss))).
Proof.
  intros L k r H. apply in_concat in H. destruct H as (w & Hw & Hr). apply In_nth_error in Hw. destruct Hw as (i & Hi).
  destruct (nth_error ss i) as [s|] eqn:Es.
  - destruct (writes_from_nth ss L k i s Es) as (L' & H1 & H2 & H3). rewrite Hi in H1. injection H1 as ->.
    exists i, s, L'. auto.
  - apply nth_error_None in Es. assert (nth_error (writes_from L k ss) i <> None) by congruence.
    apply nth_error_Some in H. rewrite writes_from_length in H. lia.
Qed.
Lemma prefix_labels ss i s L : nth_error ss i = Some s ->
  forall l, In l (seg_datum_labels s) -> In l (first_appearance L (List.concat (map seg_datum_labels (firstn (S i) ss)))).
Proof.
  intros Hs l Hl. apply first_appearance_In. right. apply in_concat. exists (seg_datum_labels s). split; [|exact Hl].
  apply in_map. revert i Hs. induction ss as [|x ss IH]; intros [|i] Hs; try discriminate.
  - cbn in *. injection Hs as ->. left. reflexivity.
  - cbn [nth_error] in Hs. change (firstn (S (S i)) (x :: ss)) with (x :: firstn (S i) ss). right. apply IH. exact Hs.
Qed.

Definition id_ok (L : list string) (id : Z) (lb : option string) : Prop :=
  match lb with None => id = (-1)%Z | Some l => exists i, id = Z.of_nat i /\ nth_error L i = Some l end.

(* what a row says about datum number k *)
Definition describes (ss : list segmentation) (k : nat) (s : segmentation) (r : srow) : Prop :=
  s_datum r = Z.of_nat k /\ s_uid r = sg_uid s /\
  (forall f, ~ gts_use ss f -> ~ pds_use ss f -> meta_get (s_meta r) f = meta_get (sg_meta s) f) /\
  (forall l f, s_gt_label r = Some l -> ~ pds_use ss f -> meta_get (s_meta r) f = own_meta (sg_gts s) (sg_meta s) l f) /\
  (forall l f, s_pd_label r = Some l -> ~ gts_use ss f -> meta_get (s_meta r) f = own_meta (sg_pds s) (sg_meta s) l f).

Lemma extends_nth L L' i l : extends L L' -> nth_error L i = Some l -> nth_error L' i = Some l.
Proof.
  intros (X & ->) H. rewrite nth_error_app1; [exact H|]. apply nth_error_Some. congruence.
Qed.
Lemma labn_id L L' i : i <= List.length L -> extends L L' -> id_ok L' (Z.of_nat i - 1) (labn L i).
Proof.
  intros Hi E. destruct i as [|i]; cbn [labn]; [reflexivity|].
  destruct (nth_error L i) as [l|] eqn:El; [|apply nth_error_None in El; lia].
  cbn [id_ok]. exists i. split; [lia|]. eapply extends_nth; eassumption.
Qed.

Lemma base_row ss r : Forall clean ss -> In r (base ss) ->
  exists k s, nth_error ss k = Some s /\ describes ss k s r
    /\ id_ok (seg_labels ss) (s_gt r) (s_gt_label r) /\ id_ok (seg_labels ss) (s_pd r) (s_pd_label r).
Proof.
  intros Hc Hr. apply base_datum in Hr. destruct Hr as (k & s & L' & Hk & Hr & EL & Ext). cbn [Nat.add] in Hr.
  exists k, s. split; [exact Hk|].
  assert (Hs : In s ss) by (eapply nth_error_In; exact Hk).
  assert (HL : NoDup L') by (subst L'; apply first_appearance_NoDup; constructor).
  rewrite Forall_forall in Hc.
  destruct (drows_In L' k s HL (Hc s Hs) r Hr) as (i & j & Hi & Hj & U & D & G & GL & P & PL & _ & M1 & M2 & M3).
  split; [|split].
  - unfold describes. split; [exact D|]. split; [exact U|]. split; [|split].
    + intros f Gf Pf. apply M1; intros C; [apply Gf|apply Pf]; exists s; auto.
    + intros l f El Pf. apply M2; [congruence|]. intros C; apply Pf; exists s; auto.
    + intros l f El Gf. apply M3; [congruence|]. intros C; apply Gf; exists s; auto.
  - rewrite G, GL. apply labn_id; assumption.
  - rewrite P, PL. apply labn_id; assumption.
Qed.

Lemma base_sum ss : forall L k Q (F : segmentation -> option string -> option string -> bool),
  NoDup L -> Forall clean ss -> Forall (fun s => (sg_size s < 2 ^ 64)%Z) ss ->
  (forall i s r, nth_error ss i = Some s -> In r (List.concat (writes_from L k ss)) -> s_datum r = Z.of_nat (k + i) ->
     Q r = F s (s_gt_label r) (s_pd_label r)) ->
  rsum Q (List.concat (writes_from L k ss)) = Z.of_nat (npix ss (fun s p => F s (gt_at s p) (pd_at s p))).
Proof.
  induction ss as [|s ss IH]; intros L k Q F HL Hc Hsm HQ; [reflexivity|].
  inversion Hc as [|? ? Hc1 Hc2]; subst. inversion Hsm as [|? ? Hs1 Hs2]; subst.
  cbn [writes_from List.concat]. rewrite rsum_app.
  assert (HL' : NoDup (next_labels L s)) by (apply first_appearance_NoDup; exact HL).
  rewrite (IH (next_labels L s) (S k) Q F HL' Hc2 Hs2).
  - rewrite (rows_sum (next_labels L s) k s HL') with (F := F s).
    + unfold npix. cbn [map list_sum_nat fold_right]. unfold list_sum_nat. lia.
    + intros l Hl. apply first_appearance_In. right. exact Hl.
    + exact Hc1.
    + exact Hs1.
    + intros r Hr. apply (HQ 0 s r eq_refl).
      * cbn [writes_from List.concat]. apply in_app_iff. left. exact Hr.
      * destruct (drows_In _ k s HL' Hc1 r Hr) as (i & j & _ & _ & _ & D & _). rewrite D. f_equal. lia.
  - intros i s' r Hi Hr Hd. apply (HQ (S i) s' r Hi).
    + cbn [writes_from List.concat]. apply in_app_iff. right. exact Hr.
    + rewrite Hd. f_equal. lia.
Qed.

(* ------------------------------------------------------------------ views *)
Definition datum_of (ss : list segmentation) (r : srow) : option segmentation := nth_error ss (Z.to_nat (s_datum r)).
Definition rkept (ss : list segmentation) (v : view) (r : srow) : bool :=
  match datum_of ss r with Some s => v_datum v s | None => false end.
Definition mask_id (sel : option (string -> bool)) (lb : option string) (id : Z) : Z :=
  match sel, lb with Some f, Some l => if f l then id else (-1)%Z | _, _ => (-1)%Z end.
Definition mask_row (ss : list segmentation) (v : view) (r : srow) : srow :=
  MkS (s_uid r) (s_datum r)
      (s_gt_label r) (mask_id (option_map (v_gt v) (datum_of ss r)) (s_gt_label r) (s_gt r))
      (s_pd_label r) (mask_id (option_map (v_pd v) (datum_of ss r)) (s_pd_label r) (s_pd r))
      (s_count r) (s_meta r).
Definition holds (ss : list segmentation) (v : view) (T : list (list srow)) : Prop :=
  List.concat T = map (mask_row ss v) (filter (rkept ss v) (base ss)) /\ aligned s_datum T.

Definition eff (id : Z) (lb : option string) : option string := if (id <? 0)%Z then None else lb.

Lemma describes_datum ss k s r : nth_error ss k = Some s -> describes ss k s r -> datum_of ss r = Some s.
Proof. intros Hk (D & _). unfold datum_of. rewrite D, Nat2Z.id. exact Hk. Qed.
Lemma mask_describes ss v k s r : describes ss k s r -> describes ss k s (mask_row ss v r).
Proof. intros H. exact H. Qed.

Lemma eff_mask L id lb f : id_ok L id lb -> eff (mask_id (Some f) lb id) lb = kept f lb.
Proof.
  destruct lb as [l|]; cbn; [|unfold eff; intros; destruct (-1 <? 0)%Z; reflexivity].
  intros (i & -> & _). unfold eff. destruct (f l).
  - destruct (Z.of_nat i <? 0)%Z eqn:E; [lia|reflexivity].
  - reflexivity.
Qed.

Section Holds.
  Variables (ss : list segmentation) (v : view) (T : list (list srow)).
  Hypothesis Hc : Forall clean ss.
  Hypothesis HT : holds ss v T.
  Let L := seg_labels ss.

  Lemma holds_row r : In r (List.concat T) ->
    exists k s, nth_error ss k = Some s /\ describes ss k s r /\ v_datum v s = true /\
      (s_gt r = (-1)%Z \/ exists i l, s_gt r = Z.of_nat i /\ s_gt_label r = Some l /\ nth_error L i = Some l /\ v_gt v s l = true) /\
      (s_pd r = (-1)%Z \/ exists i l, s_pd r = Z.of_nat i /\ s_pd_label r = Some l /\ nth_error L i = Some l /\ v_pd v s l = true).
  Proof.
    destruct HT as [-> _]. intros Hr. apply in_map_iff in Hr. destruct Hr as (b & <- & Hb). apply filter_In in Hb. destruct Hb as [Hb Hk].
    destruct (base_row ss b Hc Hb) as (k & s & Es & Hd & G & P). exists k, s.
    split; [exact Es|]. split; [apply mask_describes; exact Hd|].
    unfold rkept in Hk. rewrite (describes_datum ss k s b Es Hd) in Hk. split; [exact Hk|].
    unfold mask_row. cbn [s_gt s_gt_label s_pd s_pd_label]. rewrite (describes_datum ss k s b Es Hd). cbn [option_map].
    split.
    - unfold mask_id. destruct (s_gt_label b) as [l|]; [|left; reflexivity]. destruct (v_gt v s l) eqn:E; [|left; reflexivity].
      right. destruct G as (i & Hi & Hl). exists i, l. auto.
    - unfold mask_id. destruct (s_pd_label b) as [l|]; [|left; reflexivity]. destruct (v_pd v s l) eqn:E; [|left; reflexivity].
      right. destruct P as (i & Hi & Hl). exists i, l. auto.
  Qed.

  (* sums over the stored rows are pixel counts of the view *)
  Theorem holds_sum Q (F : segmentation -> option string -> option string -> bool) :
    countable ss ->
    (forall r k s, In r (List.concat T) -> nth_error ss k = Some s -> s_datum r = Z.of_nat k ->
       Q r = F s (eff (s_gt r) (s_gt_label r)) (eff (s_pd r) (s_pd_label r))) ->
    rsum Q (List.concat T) = Z.of_nat (npix (filter (v_datum v) ss) (fun s p => F s (vgt v s p) (vpd v s p))).
  Proof.
    intros Hn HQ. destruct HT as [ET _]. rewrite npix_filter.
    assert (E1 : rsum Q (List.concat T) = rsum (fun r => rkept ss v r && Q (mask_row ss v r)) (base ss)).
    { rewrite ET. unfold rsum, zsum. clear. induction (base ss) as [|b l IH]; [reflexivity|]. cbn [filter].
      destruct (rkept ss v b) eqn:E; cbn [map fold_right]; rewrite E; cbn [andb].
      - f_equal. exact IH.
      - rewrite IH. reflexivity. }
    rewrite E1. unfold base.
    rewrite (base_sum ss [] 0 _ (fun s g p => v_datum v s && F s (kept (v_gt v s) g) (kept (v_pd v s) p))).
    - reflexivity.
    - constructor.
    - exact Hc.
    - apply countable_each; assumption.
    - intros i s r Hi Hr Hd. cbn [Nat.add] in Hd.
      destruct (base_row ss r Hc Hr) as (k & s' & Hk & Hdes & G & P).
      assert (k = i) by (destruct Hdes as (D & _); lia). subst k. rewrite Hi in Hk. injection Hk as <-.
      unfold rkept. rewrite (describes_datum ss i s r Hi Hdes). destruct (v_datum v s) eqn:Ev; [|reflexivity]. cbn [andb].
      rewrite (HQ (mask_row ss v r) i s).
      + unfold mask_row. cbn [s_gt s_gt_label s_pd s_pd_label]. rewrite (describes_datum ss i s r Hi Hdes). cbn [option_map].
        rewrite (eff_mask L _ _ _ G), (eff_mask L _ _ _ P). reflexivity.
      + rewrite ET. apply in_map. apply filter_In. split; [exact Hr|]. unfold rkept.
        rewrite (describes_datum ss i s r Hi Hdes). exact Ev.
      + exact Hi.
      + exact Hd.
  Qed.
End Holds.

(* ------------------------------------------------------------------ filter *)
Lemma describes_gt_expr ss e sel k s r l : gt_expr ss e sel -> nth_error ss k = Some s -> describes ss k s r ->
  s_gt_label r = Some l -> eval_expr e r = sel s l.
Proof. intros He Hk (D & U & _ & M & _) Hl. apply (He r k s l); auto. Qed.
Lemma describes_pd_expr ss e sel k s r l : pd_expr ss e sel -> nth_error ss k = Some s -> describes ss k s r ->
  s_pd_label r = Some l -> eval_expr e r = sel s l.
Proof. intros He Hk (D & U & _ & _ & M) Hl. apply (He r k s l); auto. Qed.
Lemma describes_datum_expr ss e sel k s r : datum_expr ss e sel -> nth_error ss k = Some s -> describes ss k s r ->
  eval_expr e r = sel s.
Proof. intros He Hk (D & U & M & _). apply (He r k s); auto. Qed.

Lemma NoDup_nth_inj {A} (l : list A) i j x : NoDup l -> nth_error l i = Some x -> nth_error l j = Some x -> i = j.
Proof.
  intros H Hi Hj. rewrite NoDup_nth_error in H. apply H; [|congruence]. apply nth_error_Some. congruence.
Qed.

Section Filter.
  Variables (ss : list segmentation) (v w : view) (T : list (list srow)) (ed eg ep : expr).
  Hypothesis Hc : Forall clean ss.
  Hypothesis HT : holds ss v T.
  Hypothesis Hd : datum_expr ss ed (v_datum w).
  Hypothesis Hg : gt_expr ss eg (v_gt w).
  Hypothesis Hp : pd_expr ss ep (v_pd w).

  Lemma same_datum k s k' s' r r' : nth_error ss k = Some s -> nth_error ss k' = Some s' ->
    describes ss k s r -> describes ss k' s' r' -> s_datum r = s_datum r' -> s = s'.
  Proof. intros Hk Hk' (D & _) (D' & _) E. assert (k = k') by lia. subst. congruence. Qed.

  Lemma selected_gt t r k s i l : (forall r', In r' t -> In r' (List.concat T)) -> In r t ->
    nth_error ss k = Some s -> describes ss k s r -> s_gt r = Z.of_nat i -> s_gt_label r = Some l ->
    nth_error (seg_labels ss) i = Some l ->
    key_selected s_gt eg t r = v_gt w s l.
  Proof.
    intros Hin Hr Hk Hdes Hid Hl HLi. pose proof (describes_gt_expr ss eg _ k s r l Hg Hk Hdes Hl) as E.
    unfold key_selected. destruct eg as [f|]; [|exact E]. cbn in E.
    destruct (v_gt w s l) eqn:Ev.
    - apply existsb_exists. exists r. split; [exact Hr|]. rewrite E, !Z.eqb_refl. reflexivity.
    - destruct (existsb _ t) eqn:X; [|reflexivity]. apply existsb_exists in X. destruct X as (r' & Hr' & X).
      apply andb_true_iff in X. destruct X as [X X3]. apply andb_true_iff in X. destruct X as [X1 X2].
      destruct (holds_row ss v T Hc HT r' (Hin r' Hr')) as (k' & s' & Hk' & Hdes' & _ & G & _).
      assert (s = s') by (apply (same_datum k s k' s' r r'); auto; lia). subst s'.
      destruct G as [G|(i' & l' & G1 & G2 & G3 & _)]; [lia|].
      assert (i' = i) by lia. subst i'. rewrite HLi in G3. injection G3 as <-.
      pose proof (describes_gt_expr ss (Some f) _ k' s r' l Hg Hk' Hdes' G2) as E'. cbn in E'. congruence.
  Qed.
  Lemma selected_pd t r k s i l : (forall r', In r' t -> In r' (List.concat T)) -> In r t ->
    nth_error ss k = Some s -> describes ss k s r -> s_pd r = Z.of_nat i -> s_pd_label r = Some l ->
    nth_error (seg_labels ss) i = Some l ->
    key_selected s_pd ep t r = v_pd w s l.
  Proof.
    intros Hin Hr Hk Hdes Hid Hl HLi. pose proof (describes_pd_expr ss ep _ k s r l Hp Hk Hdes Hl) as E.
    unfold key_selected. destruct ep as [f|]; [|exact E]. cbn in E.
    destruct (v_pd w s l) eqn:Ev.
    - apply existsb_exists. exists r. split; [exact Hr|]. rewrite E, !Z.eqb_refl. reflexivity.
    - destruct (existsb _ t) eqn:X; [|reflexivity]. apply existsb_exists in X. destruct X as (r' & Hr' & X).
      apply andb_true_iff in X. destruct X as [X X3]. apply andb_true_iff in X. destruct X as [X1 X2].
      destruct (holds_row ss v T Hc HT r' (Hin r' Hr')) as (k' & s' & Hk' & Hdes' & _ & _ & G).
      assert (s = s') by (apply (same_datum k s k' s' r r'); auto; lia). subst s'.
      destruct G as [G|(i' & l' & G1 & G2 & G3 & _)]; [lia|].
      assert (i' = i) by lia. subst i'. rewrite HLi in G3. injection G3 as <-.
      pose proof (describes_pd_expr ss (Some f) _ k' s r' l Hp Hk' Hdes' G2) as E'. cbn in E'. congruence.
  Qed.

  (* masking row by row *)
  Definition refine (r : srow) : srow :=
    MkS (s_uid r) (s_datum r)
        (s_gt_label r) (if (s_gt r <? 0)%Z then (-1)%Z else mask_id (option_map (v_gt w) (datum_of ss r)) (s_gt_label r) (s_gt r))
        (s_pd_label r) (if (s_pd r <? 0)%Z then (-1)%Z else mask_id (option_map (v_pd w) (datum_of ss r)) (s_pd_label r) (s_pd r))
        (s_count r) (s_meta r).
  Lemma filter_table_rows t : (forall r, In r t -> In r (List.concat T)) ->
    seg_filter_table ed eg ep t = map refine (filter (rkept ss w) t).
  Proof.
    intros Ht. unfold seg_filter_table. cbv zeta.
    assert (EF : filter (eval_expr ed) t = filter (rkept ss w) t).
    { apply filter_ext_in. intros r Hr. destruct (holds_row ss v T Hc HT r (Ht r Hr)) as (k & s & Hk & Hdes & _).
      rewrite (describes_datum_expr ss ed _ k s r Hd Hk Hdes). unfold rkept. rewrite (describes_datum ss k s r Hk Hdes). reflexivity. }
    rewrite EF. apply map_ext_in. intros r Hr. pose proof Hr as Hr'. apply filter_In in Hr'. destruct Hr' as [Hrt _].
    destruct (holds_row ss v T Hc HT r (Ht r Hrt)) as (k & s & Hk & Hdes & _ & G & P).
    assert (Ht' : forall r', In r' (filter (rkept ss w) t) -> In r' (List.concat T)).
    { intros r' Hx. apply filter_In in Hx. apply Ht, Hx. }
    unfold refine. rewrite (describes_datum ss k s r Hk Hdes). cbn [option_map]. f_equal.
    - destruct G as [->|(i & l & G1 & G2 & G3 & _)]; [destruct (key_selected _ _ _ _); reflexivity|].
      rewrite (selected_gt _ r k s i l Ht' Hr Hk Hdes G1 G2 G3). rewrite G2. cbn [mask_id].
      destruct (s_gt r <? 0)%Z eqn:E; [lia|]. reflexivity.
    - destruct P as [->|(i & l & G1 & G2 & G3 & _)]; [destruct (key_selected _ _ _ _); reflexivity|].
      rewrite (selected_pd _ r k s i l Ht' Hr Hk Hdes G1 G2 G3). rewrite G2. cbn [mask_id].
      destruct (s_pd r <? 0)%Z eqn:E; [lia|]. reflexivity.
  Qed.

  Theorem holds_filter : holds ss (and_view v w) (map (seg_filter_table ed eg ep) T).
  Proof.
    assert (EM : map (seg_filter_table ed eg ep) T = map (fun t => map refine (filter (rkept ss w) t)) T).
    { apply map_ext_in. intros t Ht. apply filter_table_rows. intros r Hr. apply in_concat. eauto. }
    rewrite EM. destruct HT as [ET AT]. split.
    - assert (C : forall ts : list (list srow), List.concat (map (fun t => map refine (filter (rkept ss w) t)) ts)
                  = map refine (filter (rkept ss w) (List.concat ts))).
      { induction ts as [|t ts IH]; [reflexivity|]. cbn [map List.concat]. rewrite IH, filter_app, map_app. reflexivity. }
      rewrite C, ET. clear C EM AT.
      assert (A1 : filter (rkept ss w) (map (mask_row ss v) (filter (rkept ss v) (base ss)))
                   = map (mask_row ss v) (filter (rkept ss (and_view v w)) (base ss))).
      { clear. induction (base ss) as [|b l IH]; [reflexivity|]. cbn [filter].
        assert (E : rkept ss (and_view v w) b = rkept ss v b && rkept ss w b).
        { unfold rkept. destruct (datum_of ss b); reflexivity. }
        rewrite E. destruct (rkept ss v b); cbn [map filter andb]; [|exact IH].
        change (rkept ss w (mask_row ss v b)) with (rkept ss w b). destruct (rkept ss w b); cbn [map]; rewrite IH; reflexivity. }
      rewrite A1, map_map. apply map_ext_in. intros b Hb. apply filter_In in Hb. destruct Hb as [Hb _].
      destruct (base_row ss b Hc Hb) as (k & s & Hk & Hdes & G & P).
      unfold refine, mask_row. cbn [s_uid s_datum s_gt_label s_gt s_pd_label s_pd s_count s_meta].
      change (datum_of ss {| s_uid := s_uid b; s_datum := s_datum b; s_gt_label := s_gt_label b;
          s_gt := mask_id (option_map (v_gt v) (datum_of ss b)) (s_gt_label b) (s_gt b); s_pd_label := s_pd_label b;
          s_pd := mask_id (option_map (v_pd v) (datum_of ss b)) (s_pd_label b) (s_pd b); s_count := s_count b; s_meta := s_meta b |}) with (datum_of ss b).
      rewrite (describes_datum ss k s b Hk Hdes). cbn [option_map v_gt v_pd and_view]. f_equal.
      + unfold mask_id. destruct (s_gt_label b) as [l|]; [|reflexivity]. destruct G as (i & -> & _).
        destruct (v_gt v s l); cbn [andb]; [|reflexivity]. destruct (Z.of_nat i <? 0)%Z eqn:E; [lia|reflexivity].
      + unfold mask_id. destruct (s_pd_label b) as [l|]; [|reflexivity]. destruct P as (i & -> & _).
        destruct (v_pd v s l); cbn [andb]; [|reflexivity]. destruct (Z.of_nat i <? 0)%Z eqn:E; [lia|reflexivity].
    - intros i j ti tj a b Hi Hj Ha Hb E. rewrite nth_error_map in Hi, Hj.
      destruct (nth_error T i) as [t1|] eqn:E1; [|discriminate]. destruct (nth_error T j) as [t2|] eqn:E2; [|discriminate].
      injection Hi as <-. injection Hj as <-. apply in_map_iff in Ha, Hb. destruct Ha as (a' & <- & Ha), Hb as (b' & <- & Hb).
      apply filter_In in Ha, Hb. apply (AT i j t1 t2 a' b'); tauto.
  Qed.
End Filter.

(* ------------------------------------------------------------------ the matrix *)
Lemma u64_add a b : u64 (u64 a + u64 b) = u64 (a + b).
Proof. unfold u64. symmetry. apply Zplus_mod. Qed.
Lemma u64_zsum {A} (f : A -> Z) l : u64 (zsum (map (fun x => u64 (f x)) l)) = u64 (zsum (map f l)).
Proof.
  induction l as [|x l IH]; [reflexivity|]. cbn [map zsum fold_right].
  fold (zsum (map (fun x => u64 (f x)) l)). fold (zsum (map f l)).
  unfold u64 in *. rewrite Zplus_mod_idemp_l, Zplus_mod, IH, <- Zplus_mod. reflexivity.
Qed.
Lemma matrix_rsum T ed i j :
  seg_matrix T ed i j = u64 (rsum (fun r => eval_expr ed r && (at_index i (s_gt r) && at_index j (s_pd r))) (List.concat T)).
Proof.
  unfold seg_matrix, usum. rewrite u64_zsum. f_equal.
  induction T as [|t T IH]; [reflexivity|]. cbn [map List.concat]. rewrite rsum_app, <- IH. cbn [zsum fold_right].
  fold (zsum (map (fun tbl => zsum (map s_count (filter (fun r => at_index i (s_gt r) && at_index j (s_pd r)) (filter (eval_expr ed) tbl)))) T)).
  rewrite rsum_filter. f_equal. unfold rsum, zsum. clear.
  induction t as [|r t IH]; [reflexivity|]. cbn [filter]. destruct (eval_expr ed r) eqn:E; cbn [map fold_right]; rewrite ?E; cbn [andb].
  - f_equal. exact IH.
  - rewrite IH. reflexivity.
Qed.

Lemma at_index_eff L i a id lb (ok : Prop) : NoDup L -> index_label L i = Some a ->
  (id = (-1)%Z \/ exists k l, id = Z.of_nat k /\ lb = Some l /\ nth_error L k = Some l /\ ok) ->
  at_index i id = same (eff id lb) a.
Proof.
  intros HL Hi H. destruct i as [|i]; cbn in Hi.
  - injection Hi as <-. cbn [at_index]. destruct H as [->|(k & l & -> & -> & _)].
    + reflexivity.
    + unfold eff. destruct (Z.of_nat k <? 0)%Z eqn:E; [lia|]. cbn [same]. apply Z.eqb_neq. lia.
  - destruct (nth_error L i) as [l0|] eqn:El; [|discriminate]. injection Hi as <-. cbn [at_index].
    destruct H as [->|(k & l & -> & -> & Hk & _)].
    + change (eff (-1) lb) with (@None string). cbn [same]. apply Z.eqb_neq. lia.
    + unfold eff. destruct (Z.of_nat k <? 0)%Z eqn:E; [lia|]. cbn [same].
      destruct (Nat.eq_dec k i) as [->|N].
      * rewrite El in Hk. injection Hk as ->. rewrite String.eqb_refl. lia.
      * assert (X : String.eqb l l0 = false).
        { apply String.eqb_neq. intros ->. apply N. eapply NoDup_nth_inj; eassumption. }
        rewrite X. lia.
Qed.
Lemma seg_labels_NoDup ss : NoDup (seg_labels ss).
Proof. apply first_appearance_NoDup. constructor. Qed.

Theorem matrix_cell ss v T ed sel i j a b :
  Forall clean ss -> countable ss -> holds ss v T -> datum_expr ss ed sel ->
  index_label (seg_labels ss) i = Some a -> index_label (seg_labels ss) j = Some b ->
  seg_matrix T ed i j = Z.of_nat (vcount ss (with_datums v sel) (fun g p => same g a && same p b)).
Proof.
  intros Hc Hn HT He Hi Hj. rewrite matrix_rsum.
  rewrite (holds_sum ss v T Hc HT _ (fun s g p => sel s && (same g a && same p b)) Hn).
  - unfold vcount. rewrite !npix_filter.
    rewrite (npix_ext ss _ (fun s p => v_datum (with_datums v sel) s && (same (vgt (with_datums v sel) s p) a && same (vpd (with_datums v sel) s p) b))).
    + apply u64_small. split; [lia|]. eapply Z.le_lt_trans; [apply npix_bound; exact Hc|exact Hn].
    + intros s p _ _. cbn [with_datums v_datum]. rewrite <- andb_assoc. reflexivity.
  - intros r k s Hr Hk Hd. destruct (holds_row ss v T Hc HT r Hr) as (k' & s' & Hk' & Hdes & _ & G & P).
    assert (k' = k) by (destruct Hdes as (D & _); lia). subst k'. rewrite Hk in Hk'. injection Hk' as <-.
    rewrite (describes_datum_expr ss ed sel k s r He Hk Hdes). f_equal. f_equal.
    + destruct G as [G|(x & l & G1 & G2 & G3 & G4)]; eapply (at_index_eff _ _ _ _ _ True (seg_labels_NoDup ss) Hi); [left; exact G|right; eauto 8].
    + destruct P as [P|(x & l & G1 & G2 & G3 & G4)]; eapply (at_index_eff _ _ _ _ _ True (seg_labels_NoDup ss) Hj); [left; exact P|right; eauto 8].
Qed.
