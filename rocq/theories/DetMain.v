(* Detection counts in terms of the inputs. *)
From Verif Require Import Prelude Counting CacheModel CacheSpec SortProofs ClsModel ClsLabelProofs DetModel DetSpec DetRankProofs DetCountProofs
  DetLoaderProofs DetStoreProofs DetLocalProofs.
From Coq Require Import Lia.
From Coq Require String.
Local Open Scope nat_scope.
Local Open Scope list_scope.

Lemma numbered_In {A} (l : list A) i x : In (i, x) (numbered l) <-> nth_error l i = Some x.
Proof. apply enum_In. Qed.
Lemma numbered_sum {A} (f : A -> nat) l : list_sum_nat (map (fun x => f (snd x)) (numbered l)) = list_sum_nat (map f l).
Proof. apply enum_sum. Qed.
Lemma numbered_nth {A} (l : list A) i : nth_error (numbered l) i = option_map (fun x => (i, x)) (nth_error l i).
Proof. apply enum_nth. Qed.

Lemma pds_with_where sel ok ds l : pds_with sel ok ds l = pds_where sel (fun _ _ _ s => ok s) ds l.
Proof.
  unfold pds_with, pds_where. apply list_sum_nat_ext. intros d _. destruct (sel d); [|reflexivity]. symmetry.
  apply (numbered_sum (fun a => countb (fun ls => String.eqb l (fst ls) && ok (snd ls)) (combine (a_labels a) (a_scores a)))).
Qed.
Lemma gts_with_where sel ds l : gts_with sel ds l = gts_where sel (fun _ _ => true) ds l.
Proof.
  unfold gts_with, gts_where. apply list_sum_nat_ext. intros d _. destruct (sel d); [|reflexivity].
  rewrite !countb_as_sum. rewrite <- (numbered_sum (fun a => if existsb (String.eqb l) (a_labels a) then 1 else 0) (t_gts d)).
  apply list_sum_nat_ext. intros [g a] _. cbn [fst snd]. unfold has_label. rewrite andb_true_r. reflexivity.
Qed.

(* ------------------------------------------------------------------ *)
(** * Counting keys of annotations *)

Section Keys.
  Variables (ds : list detection) (v : String.string) (vi : Z) (sel : detection -> bool).

  Definition pd_key_of (ok : detection -> nat -> annotation -> Z -> bool) (k : Z * Z * Z) : Prop :=
    exists i d p pa n s, nth_error ds i = Some d /\ sel d = true /\ nth_error (t_pds d) p = Some pa /\
      nth_error (a_labels pa) n = Some v /\ nth_error (a_scores pa) n = Some s /\ ok d p pa s = true /\
      k = (Z.of_nat i, pd_id ds i p, vi).
  Definition gt_key_of (ok : detection -> nat -> bool) (k : Z * Z * Z) : Prop :=
    exists i d g ga, nth_error ds i = Some d /\ sel d = true /\ nth_error (t_gts d) g = Some ga /\
      has_label v ga = true /\ ok d g = true /\ k = (Z.of_nat i, gt_id ds i g, vi).

  Lemma labels_once (Q : String.string * Z -> bool) (ls : list String.string) ss :
    NoDup ls -> length (filter (fun x => String.eqb v (fst x) && Q x) (combine ls ss)) <= 1.
  Proof.
    intros H. revert ss H. induction ls as [|x t IH]; intros ss H; [destruct ss; simpl; lia|].
    destruct ss as [|s ss]; [simpl; lia|]. inversion H; subst. cbn [combine filter fst].
    destruct (String.eqb_spec v x) as [->|N]; cbn [andb]; [|apply IH; assumption].
    assert (E : filter (fun y => String.eqb x (fst y) && Q y) (combine t ss) = []).
    { apply filter_none. intros [y s'] Hy. apply in_combine_l in Hy. cbn [fst].
      destruct (String.eqb_spec x y); [subst; contradiction|reflexivity]. }
    rewrite E. destruct (Q (x, s)); simpl; lia.
  Qed.

  Lemma count_pd_keys ok K : Forall distinct_pd_labels ds -> NoDup K -> (forall k, In k K <-> pd_key_of ok k) ->
    length K = pds_where sel ok ds v.
  Proof.
    intros Hdis HN HK.
    set (one := fun (i : nat) (d : detection) (p : nat) (a : annotation) =>
      map (fun _ => (Z.of_nat i, pd_id ds i p, vi))
          (filter (fun ls => String.eqb v (fst ls) && ok d p a (snd ls)) (combine (a_labels a) (a_scores a)))).
    set (E := concat (map (fun id => if sel (snd id) then
         concat (map (fun pa => one (fst id) (snd id) (fst pa) (snd pa)) (numbered (t_pds (snd id)))) else []) (numbered ds))).
    transitivity (length E).
    - apply Permutation_length, NoDup_Permutation; [exact HN| |].
      + unfold E. apply NoDup_concat_disj.
        * intros l Hl. apply in_map_iff in Hl. destruct Hl as ([i d] & <- & Hid). apply numbered_In in Hid. cbn [fst snd].
          destruct (sel d); [|constructor]. apply NoDup_concat_disj.
          -- intros l Hl. apply in_map_iff in Hl. destruct Hl as ([p a] & <- & Hpa). apply numbered_In in Hpa. cbn [fst snd].
             unfold one. rewrite Forall_forall in Hdis.
             assert (Hc := labels_once (fun ls => ok d p a (snd ls)) (a_labels a) (a_scores a) (Hdis d (nth_error_In _ _ Hid) a (nth_error_In _ _ Hpa))).
             destruct (filter _ _) as [|x [|? ?]]; simpl in *; try lia; [constructor|]. constructor; [intros []|constructor].
          -- intros p q lp lq k Hp Hq Hpq Hkp Hkq. rewrite nth_error_map, numbered_nth in Hp, Hq.
             destruct (nth_error (t_pds d) p) as [a|] eqn:Ep; [|discriminate]. destruct (nth_error (t_pds d) q) as [b|] eqn:Eq; [|discriminate].
             cbn in Hp, Hq. inversion Hp; subst lp. inversion Hq; subst lq. unfold one in *.
             apply in_map_iff in Hkp. destruct Hkp as (_ & <- & _). apply in_map_iff in Hkq. destruct Hkq as (_ & X & _).
             inversion X as [E']. destruct (pd_id_inj ds i i d d q p b a Hid Hid Eq Ep E'). congruence.
        * intros i j li lj k Hi Hj Hij Hki Hkj. rewrite nth_error_map, numbered_nth in Hi, Hj.
          destruct (nth_error ds i) as [d|] eqn:Ed; [|discriminate]. destruct (nth_error ds j) as [e|] eqn:Ee; [|discriminate].
          cbn in Hi, Hj. inversion Hi; subst li. inversion Hj; subst lj.
          destruct (sel d); [|destruct Hki]. destruct (sel e); [|destruct Hkj].
          apply in_concat in Hki. destruct Hki as (x & Hx & Hkx). apply in_map_iff in Hx. destruct Hx as ([p a] & <- & _).
          apply in_concat in Hkj. destruct Hkj as (y & Hy & Hky). apply in_map_iff in Hy. destruct Hy as ([q b] & <- & _).
          unfold one in *. cbn in *. apply in_map_iff in Hkx. destruct Hkx as (_ & <- & _).
          apply in_map_iff in Hky. destruct Hky as (_ & X & _). inversion X. lia.
      + intros k. rewrite HK. unfold E. rewrite in_concat. split.
        * intros (i & d & p & pa & n & s & Hi & Hs & Hp & Hn & Hs' & Hok & ->). eexists. split.
          { apply in_map_iff. exists (i, d). split; [reflexivity|]. apply numbered_In. exact Hi. }
          cbn [fst snd]. rewrite Hs. apply in_concat. eexists. split.
          { apply in_map_iff. exists (p, pa). split; [reflexivity|]. apply numbered_In. exact Hp. }
          cbn [fst snd]. unfold one. apply in_map_iff. exists (v, s). split; [reflexivity|].
          apply filter_In. split; [apply combine_In_nth; eauto|]. cbn [fst snd]. rewrite String.eqb_refl. exact Hok.
        * intros (l & Hl & Hk). apply in_map_iff in Hl. destruct Hl as ([i d] & <- & Hid). apply numbered_In in Hid. cbn [fst snd] in Hk.
          destruct (sel d) eqn:Es; [|destruct Hk]. apply in_concat in Hk.
          destruct Hk as (l & Hl & Hk). apply in_map_iff in Hl. destruct Hl as ([p a] & <- & Hpa). apply numbered_In in Hpa.
          cbn [fst snd] in Hk. unfold one in Hk. apply in_map_iff in Hk. destruct Hk as ([l s] & <- & Hls).
          apply filter_In in Hls. destruct Hls as [Hls Hb]. cbn [fst snd] in Hb. apply andb_true_iff in Hb. destruct Hb as [Hb1 Hb2].
          apply String.eqb_eq in Hb1. subst l. apply combine_In_nth in Hls. destruct Hls as (n & Hk1 & Hk2).
          exists i, d, p, a, n, s. repeat split; auto.
    - unfold E, pds_where. rewrite length_concat_map.
      rewrite <- (numbered_sum (fun d => if sel d then list_sum_nat (map (fun pa => countb (fun ls => String.eqb v (fst ls) && ok d (fst pa) (snd pa) (snd ls)) (combine (a_labels (snd pa)) (a_scores (snd pa)))) (numbered (t_pds d))) else 0) ds).
      apply list_sum_nat_ext. intros [i d] _. cbn [fst snd]. destruct (sel d); [|reflexivity].
      rewrite length_concat_map. apply list_sum_nat_ext. intros [p a] _. cbn [fst snd]. unfold one. rewrite map_length. reflexivity.
  Qed.

  Lemma count_gt_keys ok K : NoDup K -> (forall k, In k K <-> gt_key_of ok k) ->
    length K = gts_where sel ok ds v.
  Proof.
    intros HN HK.
    set (one := fun (i : nat) (d : detection) (g : nat) (a : annotation) =>
      if has_label v a && ok d g then [(Z.of_nat i, gt_id ds i g, vi)] else []).
    set (E := concat (map (fun id => if sel (snd id) then
         concat (map (fun ga => one (fst id) (snd id) (fst ga) (snd ga)) (numbered (t_gts (snd id)))) else []) (numbered ds))).
    transitivity (length E).
    - apply Permutation_length, NoDup_Permutation; [exact HN| |].
      + unfold E. apply NoDup_concat_disj.
        * intros l Hl. apply in_map_iff in Hl. destruct Hl as ([i d] & <- & Hid). apply numbered_In in Hid. cbn [fst snd].
          destruct (sel d); [|constructor]. apply NoDup_concat_disj.
          -- intros l Hl. apply in_map_iff in Hl. destruct Hl as ([p a] & <- & Hpa). cbn [fst snd].
             unfold one. destruct (_ && _); repeat constructor. intros [].
          -- intros p q lp lq k Hp Hq Hpq Hkp Hkq. rewrite nth_error_map, numbered_nth in Hp, Hq.
             destruct (nth_error (t_gts d) p) as [a|] eqn:Ep; [|discriminate]. destruct (nth_error (t_gts d) q) as [b|] eqn:Eq; [|discriminate].
             cbn in Hp, Hq. inversion Hp; subst lp. inversion Hq; subst lq. unfold one in *.
             destruct (has_label v a && ok d p); [|destruct Hkp]. destruct (has_label v b && ok d q); [|destruct Hkq].
             destruct Hkp as [<-|[]]. destruct Hkq as [X|[]].
             inversion X as [E']. destruct (gt_id_inj ds i i d d q p b a Hid Hid Eq Ep E'). congruence.
        * intros i j li lj k Hi Hj Hij Hki Hkj. rewrite nth_error_map, numbered_nth in Hi, Hj.
          destruct (nth_error ds i) as [d|] eqn:Ed; [|discriminate]. destruct (nth_error ds j) as [e|] eqn:Ee; [|discriminate].
          cbn in Hi, Hj. inversion Hi; subst li. inversion Hj; subst lj.
          destruct (sel d); [|destruct Hki]. destruct (sel e); [|destruct Hkj].
          apply in_concat in Hki. destruct Hki as (x & Hx & Hkx). apply in_map_iff in Hx. destruct Hx as ([p a] & <- & _).
          apply in_concat in Hkj. destruct Hkj as (y & Hy & Hky). apply in_map_iff in Hy. destruct Hy as ([q b] & <- & _).
          unfold one in *. cbn [fst snd] in *. destruct (has_label v a && ok d p); [|destruct Hkx]. destruct (has_label v b && ok e q); [|destruct Hky].
          destruct Hkx as [<-|[]]. destruct Hky as [X|[]]. inversion X. lia.
      + intros k. rewrite HK. unfold E. rewrite in_concat. split.
        * intros (i & d & g & ga & Hi & Hs & Hg & Hl & Hok & ->). eexists. split.
          { apply in_map_iff. exists (i, d). split; [reflexivity|]. apply numbered_In. exact Hi. }
          cbn [fst snd]. rewrite Hs. apply in_concat. eexists. split.
          { apply in_map_iff. exists (g, ga). split; [reflexivity|]. apply numbered_In. exact Hg. }
          cbn [fst snd]. unfold one. rewrite Hl, Hok. left. reflexivity.
        * intros (l & Hl & Hk). apply in_map_iff in Hl. destruct Hl as ([i d] & <- & Hid). apply numbered_In in Hid. cbn [fst snd] in Hk.
          destruct (sel d) eqn:Es; [|destruct Hk]. apply in_concat in Hk.
          destruct Hk as (l & Hl & Hk). apply in_map_iff in Hl. destruct Hl as ([g a] & <- & Hga). apply numbered_In in Hga.
          cbn [fst snd] in Hk. unfold one in Hk. destruct (has_label v a) eqn:E1; [|destruct Hk]. destruct (ok d g) eqn:E2; [|destruct Hk].
          destruct Hk as [<-|[]]. exists i, d, g, a. repeat split; auto.
    - unfold E, gts_where. rewrite length_concat_map.
      rewrite <- (numbered_sum (fun d => if sel d then countb (fun ga => has_label v (snd ga) && ok d (fst ga)) (numbered (t_gts d)) else 0) ds).
      apply list_sum_nat_ext. intros [i d] _. cbn [fst snd]. destruct (sel d); [|reflexivity].
      rewrite length_concat_map, countb_as_sum. apply list_sum_nat_ext. intros [p a] _. cbn [fst snd]. unfold one.
      destruct (_ && _); reflexivity.
  Qed.
End Keys.

(* ------------------------------------------------------------------ *)
(** * Counts *)

Section Main.
  Variables (eps unit : Z) (ds : list detection) (L : list String.string) (tables : list (list drow)) (R : list drow).
  Hypothesis Hu : (0 <= unit)%Z.
  Hypothesis Hin : det_input unit ds.
  Hypothesis Hst : det_stored eps ds L tables.
  Hypothesis HR : ranked_of unit tables R.
  Hypothesis Hfew : few L.

  Lemma main_ranked_ok : ranked_ok R.
  Proof.
    apply (ranked_is_ok unit tables R Hu); [apply (stored_ious_ok eps unit ds L tables Hu Hin Hst)|
      apply (stored_labels_small eps unit ds L tables Hin Hst Hfew)|apply (stored_aligned eps ds L tables Hst)|exact HR].
  Qed.

  Lemma main_source r : In r R -> exists r0, In r0 (concat tables) /\ strip r0 = strip r.
  Proof.
    intros Hr. destruct (ranked_In unit tables R r HR Hr) as (t & r0 & Ht & Hr0 & E & _). exists r0.
    split; [apply in_concat; eauto|exact E].
  Qed.

  Lemma stored_datum r : In r (concat tables) -> exists i d, nth_error ds i = Some d /\ d_datum r = Z.of_nat i.
  Proof. intros Hr. apply (stored_rows eps unit ds L tables Hin Hst) in Hr. destruct Hr; eauto. Qed.

  Section Selected.
    Variables (sel : detection -> bool) (datums : drow -> bool).
    Hypothesis Hsel : selects_ids ds datums sel.

    (* a version of the datum filter that only looks at the datum *)
    Definition sel_rows (r : drow) : bool :=
      match nth_error ds (Z.to_nat (d_datum r)) with Some d => sel d | None => false end.
    Lemma sel_rows_by : by_datum sel_rows.
    Proof. intros a b E. unfold sel_rows. rewrite E. reflexivity. Qed.
    Lemma sel_rows_selects : selects_ids ds sel_rows sel.
    Proof. intros r i d E H. unfold sel_rows. rewrite E, Nat2Z.id, H. reflexivity. Qed.
    Lemma sel_rows_eq r i d : nth_error ds i = Some d -> d_datum r = Z.of_nat i -> datums r = sel_rows r.
    Proof. intros Hi E. rewrite (Hsel r i d E Hi), (sel_rows_selects r i d E Hi). reflexivity. Qed.
    Lemma filter_tables_eq : filter datums (concat tables) = filter sel_rows (concat tables).
    Proof.
      apply filter_ext_in. intros r Hr. destruct (stored_datum r Hr) as (i & d & Hi & E). apply (sel_rows_eq r i d Hi E).
    Qed.
    Lemma filter_ranked_eq : filter datums R = filter sel_rows R.
    Proof.
      apply filter_ext_in. intros r Hr. destruct (main_source r Hr) as (r0 & H0 & E). apply strip_fields in E.
      destruct (stored_datum r0 H0) as (i & d & Hi & Ed). apply (sel_rows_eq r i d Hi). destruct E as (E & _). congruence.
    Qed.

    Lemma main_filter_ok : ranked_ok (filter datums R).
    Proof. rewrite filter_ranked_eq. apply ranked_ok_filter; [apply sel_rows_by|apply main_ranked_ok]. Qed.

    Variables (v : String.string) (vi : nat).
    Hypothesis Hv : index_of v L = Some vi.

    Lemma main_gt_count : det_gt_count datums tables (Z.of_nat vi) = gts_with sel ds v.
    Proof.
      rewrite (det_gt_count_dcount datums tables _ (stored_aligned eps ds L tables Hst) (stored_gts_in_one eps unit ds L tables Hin Hst)).
      rewrite <- (stored_gt_count eps unit ds L tables Hin Hst sel datums v vi Hsel Hv).
      unfold dcount.
      rewrite <- (map_length (fun k : Z * Z * Z => (snd (fst k), snd k)) (dkeys zzz_dec _ _ _)).
      apply Permutation_length, NoDup_Permutation; [apply dkeys_NoDup| |].
      - assert (Hk : forall k, In k (dkeys zzz_dec gt_key (fun r => (0 <=? d_gt r)%Z && (d_gl r =? Z.of_nat vi)%Z) (filter datums (concat tables))) ->
                   exists r, In r (concat tables) /\ (0 <= d_gt r)%Z /\ gt_key r = k).
        { intros k Hk. apply dkeys_In in Hk. destruct Hk as (a & Ha & Hb & E). apply filter_In in Ha.
          apply andb_true_iff in Hb. destruct Hb as [Hb _]. apply Z.leb_le in Hb. exists a. tauto. }
        assert (HN := dkeys_NoDup zzz_dec gt_key (fun r => (0 <=? d_gt r)%Z && (d_gl r =? Z.of_nat vi)%Z) (filter datums (concat tables))).
        induction (dkeys _ _ _ _) as [|k ks IH]; [constructor|]. inversion HN as [|? ? Hn Hd]; subst. cbn [map]. constructor.
        + intros Hc. apply in_map_iff in Hc. destruct Hc as (k' & E & Hk'). apply Hn.
          destruct (Hk k (or_introl eq_refl)) as (a & Ha & Ha0 & <-). destruct (Hk k' (or_intror Hk')) as (b & Hb & Hb0 & <-).
          assert (gt_key a = gt_key b) as ->; [|exact Hk']. unfold gt_key in *. cbn in E. inversion E.
          assert (d_datum a = d_datum b); [|congruence]. apply (stored_gts_in_one eps unit ds L tables Hin Hst a b); auto.
        + apply IH; [intros; apply Hk; right; assumption|exact Hd].
      - intros k. rewrite dkeys_In, in_map_iff. split.
        + intros (a & Ha & Hb & <-). exists (gt_key a). split; [reflexivity|]. apply dkeys_In. eauto.
        + intros (k' & <- & Hk'). apply dkeys_In in Hk'. destruct Hk' as (a & Ha & Hb & <-). exists a. auto.
    Qed.

    Lemma main_tp_le t s : (0 < t)%Z -> dc_tp (det_counts_at eps t s (filter datums R) (Z.of_nat vi)) <= gts_with sel ds v.
    Proof.
      intros Ht. rewrite <- main_gt_count. rewrite filter_ranked_eq. unfold det_gt_count.
      assert (E : det_gt_count sel_rows tables (Z.of_nat vi) = det_gt_count datums tables (Z.of_nat vi)).
      { unfold det_gt_count. apply list_sum_nat_ext. intros tb Htb. f_equal. f_equal. apply filter_ext_in.
        intros r Hr. destruct (stored_datum r) as (i & d & Hi & E); [apply in_concat; eauto|]. symmetry. apply (sel_rows_eq r i d Hi E). }
      unfold det_gt_count in E. rewrite <- E. apply (tp_le_gts eps unit t s sel_rows tables R); auto.
      - apply main_ranked_ok.
      - apply sel_rows_by.
      - apply (stored_aligned eps ds L tables Hst).
      - apply (stored_gts_in_one eps unit ds L tables Hin Hst).
    Qed.

    (* -------------------------------------------------------------- predictions *)
    Lemma label_match_row r : In r (concat tables) -> label_match r = (d_gl r =? d_pl r)%Z.
    Proof.
      intros Hr. destruct (stored_labels_small eps unit ds L tables Hin Hst Hfew r Hr). apply label_match_small; assumption.
    Qed.

    Lemma meets_spec d p l : meets eps d p l = true <->
      exists g ga, nth_error (t_gts d) g = Some ga /\ In l (a_labels ga) /\ (eps <= t_iou d p g)%Z.
    Proof.
      unfold meets, has_label. rewrite existsb_exists. split.
      - intros ([g ga] & Hg & H). apply numbered_In in Hg. cbn in H. apply andb_true_iff in H. destruct H as [H1 H2].
        apply existsb_exists in H1. destruct H1 as (l' & Hl & E). apply String.eqb_eq in E. subst l'. exists g, ga. repeat split; auto; lia.
      - intros (g & ga & Hg & Hl & Hi). exists (g, ga). split; [apply numbered_In; exact Hg|]. cbn. apply andb_true_iff. split; [|lia].
        apply existsb_exists. exists l. split; [exact Hl|apply String.eqb_refl].
    Qed.

    (* rows of a prediction that match labels *)
    Lemma match_rows i d p pa n l li s : nth_error ds i = Some d -> nth_error (t_pds d) p = Some pa ->
      nth_error (a_labels pa) n = Some l -> nth_error (a_scores pa) n = Some s -> index_of l L = Some li ->
      meets eps d p l = true <->
      exists r, In r (concat tables) /\ d_pd r = pd_id ds i p /\ d_pl r = Z.of_nat li /\ label_match r = true.
    Proof.
      intros Hi Hp Hn Hs Hl. rewrite meets_spec. split.
      - intros (g & ga & Hg & HLg & Ho). apply In_nth_error in HLg. destruct HLg as (j & Hj).
        exists (MkD (t_uid d) (Z.of_nat i) (Some (a_uid ga)) (gt_id ds i g) (Some l) (Z.of_nat li)
                (Some (a_uid pa)) (pd_id ds i p) (Some l) (Z.of_nat li) s (t_iou d p g) 0).
        assert (Hr : In (MkD (t_uid d) (Z.of_nat i) (Some (a_uid ga)) (gt_id ds i g) (Some l) (Z.of_nat li)
                (Some (a_uid pa)) (pd_id ds i p) (Some l) (Z.of_nat li) s (t_iou d p g) 0) (concat tables)).
        { apply (stored_rows eps unit ds L tables Hin Hst). eapply Desc_pair; eauto. }
        split; [exact Hr|]. split; [reflexivity|]. split; [reflexivity|]. rewrite (label_match_row _ Hr). cbn. apply Z.eqb_refl.
      - intros (r & Hr & Ep & El & Hm). rewrite (label_match_row _ Hr) in Hm. apply Z.eqb_eq in Hm.
        assert (Hd := Hr). apply (stored_rows eps unit ds L tables Hin Hst) in Hd.
        destruct (described_pd _ _ _ _ Hd) as (_ & _ & _); [rewrite Ep; unfold pd_id; lia|].
        destruct Hd as [i' d' g ga gl rest gi Hi' Hg El' Ha E|i' d' p' pa' k pl s' pi Hi' Hp' Hk1 Hk2 Ha E
          |i' d' g ga j gl gi p' pa' k pl s' pi Hi' Hg Hp' Hj Hk1 Hk2 Hiou E E']; cbn in *.
        + unfold pd_id in Ep. lia.
        + lia.
        + destruct (pd_id_inj ds i' i d' d p' p pa' pa Hi' Hi Hp' Hp Ep) as [-> ->].
          assert (d' = d) by congruence. subst d'. exists g, ga. split; [exact Hg|]. split; [|exact Hiou].
          assert (gi = li) by lia. subst gi. assert (gl = l) by (eapply index_of_inj; eauto). subst gl. apply (nth_error_In _ _ Hj).
    Qed.

    Lemma pd_rows_table t r r' : In t tables -> In r t -> In r' (concat tables) -> (0 <= d_pd r)%Z -> d_pd r' = d_pd r -> In r' t.
    Proof.
      intros Ht Hr Hr' H0 E. apply in_concat in Hr'. destruct Hr' as (t' & Ht' & Hr').
      apply In_nth_error in Ht. destruct Ht as (i & Hti). apply In_nth_error in Ht'. destruct Ht' as (j & Htj).
      assert (j = i); [|subst; congruence].
      apply (stored_aligned eps ds L tables Hst j i t' t r' r Htj Hti Hr' Hr).
      apply (stored_pds_in_one eps unit ds L tables Hin Hst); [apply in_concat; exists t'|apply in_concat; exists t|lia|exact E];
        split; eauto using nth_error_In.
    Qed.

    (* keys in the ranked cache *)
    Lemma ranked_key_iff k : (exists r, In r R /\ pd_key r = k) <->
      exists r, In r (concat tables) /\ pd_key r = k /\ eligible (concat tables) r.
    Proof.
      split.
      - intros (r & Hr & <-). destruct (ranked_In unit tables R r HR Hr) as (t & r0 & Ht & _ & _ & Hr').
        destruct (rank_table_In unit t r Hr') as (r1 & Hr1 & E & Hr1t). apply rank_pairs_In in Hr1. destruct Hr1 as (_ & He & _).
        exists r1. split; [apply in_concat; eauto|]. split; [apply strip_fields in E; unfold pd_key; destruct E as (-> & _ & _ & -> & -> & _); reflexivity|].
        destruct He as [He1 He2]. split; [exact He1|]. destruct He2 as [He2|He2]; [left; exact He2|right].
        intros r' Hr2 E'. apply He2; [|exact E']. apply (pd_rows_table t r1 r'); auto.
      - intros (r & Hr & <- & He). apply in_concat in Hr. destruct Hr as (t & Ht & Hrt).
        assert (Het : eligible t r).
        { destruct He as [He1 He2]. split; [exact He1|]. destruct He2 as [He2|He2]; [left; exact He2|right].
          intros r' Hr' E. apply He2; [apply in_concat; eauto|exact E]. }
        destruct (rank_pairs_cover t r Hrt Het) as (r0 & Hr0 & Ek).
        assert (Hx : In (strip r0) (map strip (rank_table unit t))) by (rewrite rank_table_strip; apply in_map; exact Hr0).
        apply in_map_iff in Hx. destruct Hx as (r1 & E1 & Hr1). exists r1. split.
        + destruct HR as (HP & _). apply (Permutation_in _ (stable_sort_perm _ (row_leb_total det_sorting) (row_leb_trans det_sorting) _ _ HR)).
          apply in_concat. exists (rank_table unit t). split; [apply in_map; exact Ht|exact Hr1].
        + rewrite <- Ek. apply strip_fields in E1. unfold pd_key. destruct E1 as (-> & _ & _ & -> & -> & _). reflexivity.
    Qed.

    Lemma takes_part_iff i d p pa n s : nth_error ds i = Some d -> nth_error (t_pds d) p = Some pa ->
      nth_error (a_labels pa) n = Some v -> nth_error (a_scores pa) n = Some s ->
      takes_part eps d p pa v = true <-> exists r, In r (concat tables) /\ pd_key r = (Z.of_nat i, pd_id ds i p, Z.of_nat vi) /\ eligible (concat tables) r.
    Proof.
      intros Hi Hp Hn Hs. unfold takes_part. rewrite orb_true_iff.
      assert (Hlen : length (a_labels pa) = length (a_scores pa)).
      { unfold det_input in Hin. rewrite Forall_forall in Hin. destruct (Hin d (nth_error_In _ _ Hi)) as (Hdo & _ & _).
        unfold det_ok in Hdo. rewrite !andb_true_iff in Hdo. destruct Hdo as [_ Ho]. rewrite forallb_forall in Ho.
        specialize (Ho pa (nth_error_In _ _ Hp)). apply Nat.eqb_eq in Ho. auto. }
      split.
      - intros [H|H].
        + apply (match_rows i d p pa n v vi s Hi Hp Hn Hs Hv) in H. destruct H as (r & Hr & E1 & E2 & Hm).
          exists r. split; [exact Hr|]. split.
          * unfold pd_key. rewrite E1, E2. f_equal. f_equal.
            destruct (pd_recorded eps unit ds L tables Hin Hst i d p pa n v s Hi Hp Hn Hs) as (r' & pi & Hr' & _ & Ed & Ep & _).
            rewrite <- Ed. apply (stored_pds_in_one eps unit ds L tables Hin Hst r r'); auto; [rewrite E1; unfold pd_id; lia|congruence].
          * split; [rewrite E1; unfold pd_id; lia|left; exact Hm].
        + destruct (pd_recorded eps unit ds L tables Hin Hst i d p pa n v s Hi Hp Hn Hs) as (r & pi & Hr & Hpi & Ed & Ep & El & _).
          assert (pi = vi) by congruence. subst pi. exists r. split; [exact Hr|]. split; [unfold pd_key; congruence|].
          split; [rewrite Ep; unfold pd_id; lia|right]. intros r' Hr' E'. destruct (label_match r') eqn:Em; [|reflexivity]. exfalso.
          assert (Hd := Hr'). apply (stored_rows eps unit ds L tables Hin Hst) in Hd.
          destruct (described_pd _ _ _ _ Hd) as (i' & d' & p' & pa' & k' & pl & s' & pi & Hi' & Hp' & Hk1 & Hk2 & Hx & E1 & E2 & E3 & _);
            [rewrite E', Ep; unfold pd_id; lia|].
          assert (E0 : pd_id ds i' p' = pd_id ds i p) by congruence.
          destruct (pd_id_inj ds i' i d' d p' p pa' pa Hi' Hi Hp' Hp E0) as [-> ->].
          assert (d' = d) by congruence. subst d'. assert (pa' = pa) by congruence. subst pa'.
          rewrite forallb_forall in H. specialize (H pl (nth_error_In _ _ Hk1)). apply negb_true_iff in H.
          assert (Hm : meets eps d p pl = true); [|congruence].
          apply (match_rows i d p pa k' pl pi s' Hi Hp Hk1 Hk2 Hx). exists r'. auto.
      - intros (r & Hr & Ek & He1 & He2). unfold pd_key in Ek. inversion Ek as [[E1 E2 E3]]. destruct He2 as [He2|He2].
        + left. apply (match_rows i d p pa n v vi s Hi Hp Hn Hs Hv). exists r. auto.
        + right. apply forallb_forall. intros l' Hl'. apply negb_true_iff. destruct (meets eps d p l') eqn:Em; [|reflexivity]. exfalso.
          apply In_nth_error in Hl'. destruct Hl' as (n' & Hn').
          destruct (nth_error (a_scores pa) n') as [s'|] eqn:Hs'.
          2:{ apply nth_error_None in Hs'. assert (n' < length (a_labels pa)) by (apply nth_error_Some; congruence). lia. }
          destruct (pd_recorded eps unit ds L tables Hin Hst i d p pa n' l' s' Hi Hp Hn' Hs') as (_ & li & _ & Hli & _).
          apply (match_rows i d p pa n' l' li s' Hi Hp Hn' Hs' Hli) in Em. destruct Em as (r' & Hr' & X1 & _ & Hm).
          rewrite (He2 r' Hr') in Hm; [discriminate|congruence].
    Qed.

    Lemma main_pd_count t s : Forall distinct_pd_labels ds ->
      dc_tp (det_counts_at eps t s (filter datums R) (Z.of_nat vi)) + dc_fp (det_counts_at eps t s (filter datums R) (Z.of_nat vi))
      = pds_where sel (fun d p a sc => (eps <? sc)%Z && (s <=? sc)%Z && takes_part eps d p a v) ds v.
    Proof.
      intros Hdis. rewrite tp_plus_fp.
      rewrite <- (dcount_inj zzz_dec pd_key).
      2:{ apply NoDup_map_filter. apply (ro_keys _ main_filter_ok). }
      unfold dcount. apply (count_pd_keys ds v (Z.of_nat vi)); [exact Hdis|apply dkeys_NoDup|].
      intros k. rewrite dkeys_In. unfold pd_key_of, score_ok. split.
      - intros (r & Hr & Hb & <-). apply filter_In in Hr. destruct Hr as [Hr Hdt].
        rewrite !andb_true_iff in Hb. destruct Hb as [[Hb1 Hb2] Hb3]. apply Z.eqb_eq in Hb3.
        destruct (main_source r Hr) as (r0 & Hr0 & E). apply strip_fields in E. destruct E as (Ed & _ & _ & Ep & El & Esc & _).
        destruct (proj1 (ranked_key_iff (pd_key r)) (ex_intro _ r (conj Hr eq_refl))) as (r1 & Hr1 & Ek & He).
        unfold pd_key in Ek. inversion Ek as [[F1 F2 F3]].
        assert (Hd := Hr0). apply (stored_rows eps unit ds L tables Hin Hst) in Hd.
        destruct (described_pd _ _ _ _ Hd) as (i & d & p & pa & n & pl & s' & pi & Hi & Hp & Hn & Hs & Hx & E1 & E2 & E3 & E4 & _);
          [destruct He; lia|].
        assert (pi = vi) by lia. subst pi. assert (pl = v) by (eapply index_of_inj; eauto). subst pl.
        exists i, d, p, pa, n, s'. split; [exact Hi|]. split; [rewrite <- (Hsel r i d) by congruence; exact Hdt|].
        split; [exact Hp|]. split; [exact Hn|]. split; [exact Hs|]. split.
        + rewrite !andb_true_iff. split; [split; [rewrite <- E4, Esc; exact Hb1|rewrite <- E4, Esc; exact Hb2]|].
          apply (takes_part_iff i d p pa n s' Hi Hp Hn Hs). exists r1. split; [exact Hr1|]. split; [unfold pd_key; congruence|exact He].
        + unfold pd_key. congruence.
      - intros (i & d & p & pa & n & s' & Hi & Hs & Hp & Hn & Hs' & Hok & ->).
        rewrite !andb_true_iff in Hok. destruct Hok as [[Ho1 Ho2] Ho3].
        apply (takes_part_iff i d p pa n s' Hi Hp Hn Hs') in Ho3.
        apply ranked_key_iff in Ho3. destruct Ho3 as (r & Hr & Ek). exists r.
        unfold pd_key in Ek. inversion Ek as [[F1 F2 F3]].
        destruct (main_source r Hr) as (r0 & Hr0 & E). apply strip_fields in E. destruct E as (Ed & _ & _ & Ep & El & Esc & _).
        destruct (pd_recorded eps unit ds L tables Hin Hst i d p pa n v s' Hi Hp Hn Hs') as (r1 & pi & Hr1 & Hpi & X1 & X2 & X3 & X4).
        assert (pi = vi) by congruence. subst pi.
        assert (Es : d_score r0 = d_score r1).
        { apply (stored_scores eps unit ds L tables Hin Hst Hdis r0 r1); auto; [rewrite Ep, F2; unfold pd_id; lia|congruence|congruence]. }
        split; [apply filter_In; split; [exact Hr|rewrite (Hsel r i d) by congruence; exact Hs]|].
        split; [|unfold pd_key; congruence]. rewrite !andb_true_iff.
        assert (Esr : d_score r = s') by congruence. rewrite Esr. split; [auto|]. rewrite F3. apply Z.eqb_refl.
    Qed.

    Lemma takes_part_single d p a : In d ds -> In a (t_pds d) -> single_pd_labels d -> In v (a_labels a) -> takes_part eps d p a v = true.
    Proof.
      intros Hd Ha H1 Hl. specialize (H1 a Ha). unfold takes_part. destruct (a_labels a) as [|x [|y u]]; cbn in H1; try discriminate.
      destruct Hl as [->|[]]. cbn. destruct (meets eps d p v); reflexivity.
    Qed.

    Lemma main_pd_count_single t s : Forall single_pd_labels ds ->
      dc_tp (det_counts_at eps t s (filter datums R) (Z.of_nat vi)) + dc_fp (det_counts_at eps t s (filter datums R) (Z.of_nat vi))
      = pds_with sel (fun sc => (eps <? sc)%Z && (s <=? sc)%Z) ds v.
    Proof.
      intros H1. rewrite main_pd_count.
      - rewrite pds_with_where. unfold pds_where. apply list_sum_nat_ext. intros d Hd. destruct (sel d); [|reflexivity].
        apply list_sum_nat_ext. intros [p a] Hpa. apply numbered_In in Hpa. cbn [fst snd]. unfold countb. f_equal.
        apply filter_ext_in. intros [l sc] Hl. apply in_combine_l in Hl. cbn [fst snd]. destruct (String.eqb_spec v l) as [->|N]; [|reflexivity].
        rewrite Forall_forall in H1.
        assert (E : takes_part eps d p a l = true).
        { unfold takes_part. specialize (H1 d Hd a (nth_error_In _ _ Hpa)). destruct (a_labels a) as [|x [|y u]]; cbn in H1; try discriminate.
          destruct Hl as [->|[]]. cbn. destruct (meets eps d p l); reflexivity. }
        rewrite E, andb_true_r. reflexivity.
      - eapply Forall_impl; [|exact H1]. intros d Hd a Ha. specialize (Hd a Ha). destruct (a_labels a) as [|x [|y u]]; try discriminate.
        constructor; [intros []|constructor].
    Qed.

    (* -------------------------------------------------------------- true positives *)
    Lemma aims_spec d p g l : aims_at d p g l = true <->
      forall g' ga', nth_error (t_gts d) g' = Some ga' -> has_label l ga' = true -> (t_iou d p g' <= t_iou d p g)%Z.
    Proof.
      unfold aims_at. rewrite forallb_forall. split.
      - intros H g' ga' Hg Hl. specialize (H (g', ga')). cbn in H. rewrite Hl in H. cbn in H.
        assert (X := H (proj2 (numbered_In _ _ _) Hg)). lia.
      - intros H [g' ga'] Hg. apply numbered_In in Hg. cbn. destruct (has_label l ga') eqn:E; [|reflexivity]. cbn.
        specialize (H g' ga' Hg E). lia.
    Qed.

    Lemma detected_spec t s d g : detected eps t s d v g = true <->
      exists p pa n sc, nth_error (t_pds d) p = Some pa /\ nth_error (a_labels pa) n = Some v /\ nth_error (a_scores pa) n = Some sc /\
        (eps < sc)%Z /\ (s <= sc)%Z /\ (eps <= t_iou d p g)%Z /\ (t <= t_iou d p g)%Z /\ aims_at d p g v = true.
    Proof.
      unfold detected. rewrite existsb_exists. split.
      - intros ([p pa] & Hp & H). apply numbered_In in Hp. cbn [fst snd] in H. rewrite !andb_true_iff in H.
        destruct H as [[[H1 H2] H3] H4]. apply existsb_exists in H1. destruct H1 as ([l sc] & Hl & H1). cbn [fst snd] in H1.
        rewrite !andb_true_iff in H1. destruct H1 as [[H0 H1] H1']. apply String.eqb_eq in H0. subst l.
        apply combine_In_nth in Hl. destruct Hl as (n & Hn & Hs). exists p, pa, n, sc. repeat split; auto; lia.
      - intros (p & pa & n & sc & Hp & Hn & Hs & H1 & H2 & H3 & H4 & H5). exists (p, pa). split; [apply numbered_In; exact Hp|].
        cbn [fst snd]. rewrite H5. replace (eps <=? t_iou d p g)%Z with true by lia. replace (t <=? t_iou d p g)%Z with true by lia.
        rewrite !andb_true_r. apply existsb_exists. exists (v, sc). split; [apply combine_In_nth; eauto|]. cbn [fst snd].
        rewrite String.eqb_refl. cbn. lia.
    Qed.

    (* a ranked row that matches labels pairs its prediction with the ground truth it overlaps most *)
    Lemma ranked_row_aims r : In r R -> label_match r = true ->
      exists i d g ga p pa n sc, nth_error ds i = Some d /\ nth_error (t_gts d) g = Some ga /\ nth_error (t_pds d) p = Some pa /\
        d_datum r = Z.of_nat i /\ d_gt r = gt_id ds i g /\ d_pd r = pd_id ds i p /\ d_iou r = t_iou d p g /\ d_score r = sc /\
        (eps <= t_iou d p g)%Z /\
        exists l li, index_of l L = Some li /\ d_gl r = Z.of_nat li /\ d_pl r = Z.of_nat li /\ In l (a_labels ga) /\
          nth_error (a_labels pa) n = Some l /\ nth_error (a_scores pa) n = Some sc /\
          forall g' ga', nth_error (t_gts d) g' = Some ga' -> has_label l ga' = true -> (eps <= t_iou d p g')%Z ->
            (t_iou d p g' <= t_iou d p g)%Z.
    Proof.
      intros Hr Hm. destruct (ranked_In unit tables R r HR Hr) as (t & _ & Ht & _ & _ & Hr').
      destruct (rank_table_In unit t r Hr') as (r0 & Hr0 & E & Hr0t). apply rank_pairs_In in Hr0. destruct Hr0 as (_ & He & Hbest).
      apply strip_fields in E. destruct E as (Ed & Eg & Egl & Ep & Epl & Esc & Eio).
      assert (Hc : In r0 (concat tables)) by (apply in_concat; eauto).
      assert (Em : d_gl r0 = d_pl r0).
      { assert (X : label_match r0 = true) by (unfold label_match in *; rewrite Egl, Epl; exact Hm).
        rewrite (label_match_row _ Hc) in X. apply Z.eqb_eq in X. exact X. }
      destruct He as [He1 He2]. assert (Hd := Hc). apply (stored_rows eps unit ds L tables Hin Hst) in Hd.
      destruct Hd as [i' d' g ga gl rest gi Hi' Hg El' Ha E|i' d' p' pa' k pl s' pi Hi' Hp' Hk1 Hk2 Ha E
          |i d g ga j gl gi p pa k pl s' pi Hi Hg Hp Hj Hk1 Hk2 Hiou E E']; cbn in *; try lia.
      assert (gi = pi) by lia. subst gi. assert (gl = pl) by (eapply index_of_inj; eauto). subst gl.
      exists i, d, g, ga, p, pa, k, s'. split; [exact Hi|]. split; [exact Hg|]. split; [exact Hp|]. split; [congruence|]. split; [congruence|].
      split; [congruence|]. split; [congruence|]. split; [congruence|]. split; [exact Hiou|].
      exists pl, pi. split; [exact E'|]. split; [congruence|]. split; [congruence|]. split; [apply (nth_error_In _ _ Hj)|].
      split; [exact Hk1|]. split; [exact Hk2|]. intros g' ga' Hg' Hl' Hi'.
      unfold has_label in Hl'. apply existsb_exists in Hl'. destruct Hl' as (l' & Hl' & X). apply String.eqb_eq in X. subst l'.
      apply In_nth_error in Hl'. destruct Hl' as (j' & Hj').
      set (r2 := MkD (t_uid d) (Z.of_nat i) (Some (a_uid ga')) (gt_id ds i g') (Some pl) (Z.of_nat pi)
                (Some (a_uid pa)) (pd_id ds i p) (Some pl) (Z.of_nat pi) s' (t_iou d p g') 0).
      assert (Hr2 : In r2 (concat tables)).
      { apply (stored_rows eps unit ds L tables Hin Hst). eapply Desc_pair; eauto. }
      assert (Hr2t : In r2 t).
      { apply (pd_rows_table t _ r2 Ht Hr0t Hr2); [exact He1|reflexivity]. }
      assert (Hb : det_leb (MkD (t_uid d) (Z.of_nat i) (Some (a_uid ga)) (gt_id ds i g) (Some pl) (Z.of_nat pi)
                (Some (a_uid pa)) (pd_id ds i p) (Some pl) (Z.of_nat pi) s' (t_iou d p g) 0) r2 = true).
      { apply Hbest; [exact Hr2t| |reflexivity]. split; [exact He1|]. left. rewrite (label_match_row _ Hr2). cbn. apply Z.eqb_refl. }
      apply det_leb_spec in Hb. cbn in Hb. lia.
    Qed.

    Lemma best_match_filter k t : by_datum sel_rows -> forall b, best_match R k t = Some b -> sel_rows b = true ->
      best_match (filter sel_rows R) k t = Some b.
    Proof.
      intros HP b H Hs. rewrite !best_match_eq in *. apply find_split in H. destruct H as (l1 & l2 & E & Hb & Hn).
      rewrite E, filter_app. cbn [filter]. rewrite Hs. rewrite find_app.
      rewrite find_none_iff by (intros y Hy; apply filter_In in Hy; apply Hn; tauto). cbn [find]. rewrite Hb. reflexivity.
    Qed.

    Lemma best_match_exists Rl k t r : In r Rl -> gt_mask k r = true -> (t <= d_iou r)%Z ->
      StronglySorted (leP det_leb) Rl ->
      exists b, best_match Rl k t = Some b /\ (d_score r <= d_score b)%Z.
    Proof.
      intros Hr Hk Ht Hs. rewrite best_match_eq. destruct (find (fun r => gt_mask k r && (t <=? d_iou r)%Z) Rl) as [b|] eqn:Eb.
      - exists b. split; [reflexivity|]. apply find_split in Eb. destruct Eb as (l1 & l2 & E & Hm & Hn).
        rewrite E in Hr, Hs. apply in_app_iff in Hr. destruct Hr as [Hr|[->|Hr]].
        + specialize (Hn r Hr). cbn in Hn. rewrite Hk in Hn. cbn in Hn. lia.
        + lia.
        + apply StronglySorted_app in Hs. destruct Hs as (_ & Hs & _). inversion Hs as [|? ? _ Hf]; subst.
          rewrite Forall_forall in Hf. specialize (Hf r Hr). apply det_leb_spec in Hf. lia.
      - exfalso. assert (X := find_none _ _ Eb r Hr). cbn in X. rewrite Hk in X. cbn in X. lia.
    Qed.

    Lemma main_tp_spec t s : (0 < t)%Z -> (0 <= eps)%Z -> Forall distinct_pd_labels ds -> Forall (no_ties eps) ds ->
      dc_tp (det_counts_at eps t s (filter datums R) (Z.of_nat vi))
      = gts_where sel (fun d g => detected eps t s d v g) ds v.
    Proof.
      intros Ht He Hdis Hnt. rewrite tp_count_spec by (auto using main_filter_ok). unfold dcount.
      apply (count_gt_keys ds v (Z.of_nat vi)); [apply dkeys_NoDup|]. intros k. rewrite dkeys_In. unfold gt_key_of. split.
      - intros (r & Hr & Hb & <-). rewrite !andb_true_iff in Hb. destruct Hb as [[Hb1 Hb2] Hb3]. apply Z.eqb_eq in Hb2.
        unfold good_match in Hb3. destruct (best_match (filter datums R) (gt_key r) t) as [b|] eqn:Eb; [|discriminate].
        apply andb_true_iff in Hb3. destruct Hb3 as [Hs1 Hs2].
        destruct (best_match_key (filter datums R) _ _ _ Eb) as (Hbin & Ekey & Elab & Hbt).
        apply filter_In in Hbin. destruct Hbin as [HbR Hbd].
        assert (Hbm : label_match b = true) by (rewrite (R_match R main_ranked_ok b HbR); lia).
        destruct (ranked_row_aims b HbR Hbm) as (i & d & g & ga & p & pa & n & sc & Hi & Hg & Hp & E1 & E2 & E3 & E4 & E5 & Hie & l & li & Hl & Hgl & Hpl & Hla & Hn & Hsn & Hbest).
        unfold gt_key in Ekey. inversion Ekey as [[K1 K2 K3]].
        assert (li = vi) by lia. subst li. assert (l = v) by (eapply index_of_inj; eauto). subst l.
        exists i, d, g, ga. split; [exact Hi|]. split; [rewrite <- (Hsel b i d E1 Hi); exact Hbd|]. split; [exact Hg|].
        split; [apply existsb_exists; exists v; split; [exact Hla|apply String.eqb_refl]|]. split.
        + apply detected_spec. exists p, pa, n, sc. split; [exact Hp|]. split; [exact Hn|]. split; [exact Hsn|]. split; [lia|]. split; [lia|].
          split; [exact Hie|]. split; [lia|]. apply aims_spec. intros g' ga' Hg' Hl'.
          destruct (Z.le_gt_cases eps (t_iou d p g')) as [X|X]; [|lia]. apply (Hbest g' ga' Hg' Hl' X).
        + unfold gt_key. congruence.
      - intros (i & d & g & ga & Hi & Hsd & Hg & Hl & Hok & ->).
        apply detected_spec in Hok. destruct Hok as (p & pa & n & sc & Hp & Hn & Hsn & H1 & H2 & H3 & H4 & H5).
        (* the ranked row of the prediction under v *)
        assert (Hmeet : meets eps d p v = true).
        { apply meets_spec. exists g, ga. split; [exact Hg|]. split; [|exact H3]. unfold has_label in Hl. apply existsb_exists in Hl.
          destruct Hl as (l' & Hl' & X). apply String.eqb_eq in X. subst l'. exact Hl'. }
        assert (Htp : takes_part eps d p pa v = true) by (unfold takes_part; rewrite Hmeet; reflexivity).
        apply (takes_part_iff i d p pa n sc Hi Hp Hn Hsn) in Htp. apply ranked_key_iff in Htp. destruct Htp as (r & Hr & Ek).
        unfold pd_key in Ek. inversion Ek as [[F1 F2 F3]].
        (* it matches labels: eligible rows of a prediction that meets v *)
        assert (Hm : label_match r = true).
        { destruct (ranked_In unit tables R r HR Hr) as (t0 & _ & Ht0 & _ & _ & Hr').
          destruct (rank_table_In unit t0 r Hr') as (r0 & Hr0 & E & Hr0t). apply rank_pairs_In in Hr0. destruct Hr0 as (_ & He0 & _).
          apply strip_fields in E. destruct E as (Ed & Eg & Egl & Ep & Epl & Esc & Eio).
          assert (X : label_match r0 = true); [|unfold label_match in *; rewrite Egl, Epl in X; exact X].
          destruct He0 as [He1 [He2|He2]]; [exact He2|]. exfalso.
          apply (match_rows i d p pa n v vi sc Hi Hp Hn Hsn Hv) in Hmeet. destruct Hmeet as (r2 & Hr2 & Q1 & Q2 & Q3).
          rewrite (He2 r2) in Q3; [discriminate| |congruence]. apply (pd_rows_table t0 r0 r2 Ht0 Hr0t Hr2 He1). congruence. }
        destruct (ranked_row_aims r Hr Hm) as (i' & d' & g' & ga' & p' & pa' & n' & sc' & Hi' & Hg' & Hp' & E1 & E2 & E3 & E4 & E5 & Hie & l & li & Hli & Hgl & Hpl & Hla & Hn' & Hsn' & Hbest).
        assert (E0 : pd_id ds i' p' = pd_id ds i p) by congruence.
        destruct (pd_id_inj ds i' i d' d p' p pa' pa Hi' Hi Hp' Hp E0) as [-> ->].
        assert (d' = d) by congruence. subst d'. assert (pa' = pa) by congruence. subst pa'.
        assert (li = vi) by lia. subst li. assert (l = v) by (eapply index_of_inj; eauto). subst l.
        assert (n' = n).
        { rewrite Forall_forall in Hdis. specialize (Hdis d (nth_error_In _ _ Hi) pa (nth_error_In _ _ Hp)).
          rewrite NoDup_nth_error in Hdis. apply Hdis; [apply nth_error_Some; congruence|congruence]. }
        subst n'. assert (sc' = sc) by congruence. subst sc'.
        assert (Hl' : has_label v ga' = true) by (apply existsb_exists; exists v; split; [exact Hla|apply String.eqb_refl]).
        assert (g' = g).
        { rewrite Forall_forall in Hnt. apply (Hnt d (nth_error_In _ _ Hi) p g' g ga' ga v Hg' Hg Hl' Hl Hie).
          assert (X1 := Hbest g ga Hg Hl H3). rewrite aims_spec in H5. assert (X2 := H5 g' ga' Hg' Hl'). lia. }
        subst g'.
        assert (Hkey : gt_key r = (Z.of_nat i, gt_id ds i g, Z.of_nat vi)) by (unfold gt_key; congruence).
        assert (HrF : In r (filter datums R)) by (apply filter_In; split; [exact Hr|rewrite (Hsel r i d E1 Hi); exact Hsd]).
        destruct (best_match_exists (filter datums R) (gt_key r) t r HrF) as (b & Hb & Hbs).
        + apply gt_mask_spec. split; [reflexivity|congruence].
        + lia.
        + apply (ro_sorted _ main_filter_ok).
        + exists r. split; [exact HrF|]. split; [|congruence].
          rewrite !andb_true_iff. split; [split; [rewrite E2; unfold gt_id; lia|lia]|].
          unfold good_match. rewrite Hb. lia.
    Qed.
  End Selected.
End Main.
