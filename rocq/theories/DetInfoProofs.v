(* Evaluator.get_info of object detection: what the three counts are. *)
From Verif Require Import Prelude Counting CacheModel CacheSpec CacheProofs SortProofs ClsModel ClsLabelProofs FlowModel
  DetModel DetExModel DetSpec DetRankProofs DetCountProofs DetLoaderProofs DetStoreProofs DetLocalProofs DetFlowModel DetFlowProofs
  DetOrderProofs DetMain DetApProofs DetReportModel DetEnd DetMore DetFilterModel DetFilterSpec DetFilterProofs DetFilterEntries DetFilterPruned DetFilterMain DetFilterMore.
From Coq Require Import Lia.
From Coq Require String.
Local Open Scope nat_scope.
Local Open Scope list_scope.

(* counting by distinct identifiers of (outer, inner) positions *)
Lemma count_ids {A D} (ds : list D) (f : D -> list A) (ok : D -> nat -> A -> bool) (id : nat -> nat -> Z) K :
  (forall i j d e g h a b, nth_error ds i = Some d -> nth_error ds j = Some e -> nth_error (f d) g = Some a -> nth_error (f e) h = Some b -> id i g = id j h -> i = j /\ g = h) ->
  NoDup K ->
  (forall k, In k K <-> exists i d g a, nth_error ds i = Some d /\ nth_error (f d) g = Some a /\ ok d g a = true /\ k = id i g) ->
  length K = list_sum_nat (map (fun d => countb (fun ga => ok d (fst ga) (snd ga)) (numbered (f d))) ds).
Proof.
  intros Hinj HN HK.
  set (one := fun x : nat * D => map (fun ga => id (fst x) (fst ga)) (filter (fun ga => ok (snd x) (fst ga) (snd ga)) (numbered (f (snd x))))).
  transitivity (length (concat (map one (numbered ds)))).
  - apply Permutation_length, NoDup_Permutation; [exact HN| |].
    + apply NoDup_concat_disj.
      * intros l Hl. apply in_map_iff in Hl. destruct Hl as ([i d] & <- & Hid). apply numbered_In in Hid. unfold one. cbn [fst snd].
        assert (X : NoDup (filter (fun ga => ok d (fst ga) (snd ga)) (numbered (f d)))).
        { apply NoDup_filter. apply (NoDup_map_inv fst). rewrite numbered_fst. apply seq_NoDup. }
        assert (Y : forall ga, In ga (filter (fun ga => ok d (fst ga) (snd ga)) (numbered (f d))) -> nth_error (f d) (fst ga) = Some (snd ga)).
        { intros [g a] Hg. apply filter_In in Hg. destruct Hg as [Hg _]. apply numbered_In in Hg. exact Hg. }
        induction (filter _ (numbered (f d))) as [|[g a] l IH]; [constructor|]. inversion X as [|? ? X1 X2]; subst. cbn [map]. constructor.
        -- intros Z. apply in_map_iff in Z. destruct Z as ([h b] & E & Hb). cbn in E. apply X1.
           destruct (Hinj i i d d h g b a Hid Hid (Y (h, b) (or_intror Hb)) (Y (g, a) (or_introl eq_refl)) E) as [_ ->].
           assert (Y1 := Y (g, b) (or_intror Hb)). assert (Y2 := Y (g, a) (or_introl eq_refl)). cbn in Y1, Y2. assert (b = a) by congruence. subst b. exact Hb.
        -- apply IH; [exact X2|]. intros; apply Y; right; assumption.
      * intros i j li lj k Hi Hj Hij Hki Hkj. rewrite nth_error_map, numbered_nth in Hi, Hj.
        destruct (nth_error ds i) as [d|] eqn:Ed; [|discriminate]. destruct (nth_error ds j) as [e|] eqn:Ee; [|discriminate].
        cbn [option_map] in Hi, Hj. injection Hi as <-. injection Hj as <-. unfold one in *. cbn [fst snd] in *.
        apply in_map_iff in Hki, Hkj. destruct Hki as ([g a] & <- & Hg). destruct Hkj as ([h b] & E & Hh). apply filter_In in Hg, Hh.
        destruct Hg as [Hg _]. destruct Hh as [Hh _]. apply numbered_In in Hg, Hh. cbn in E. destruct (Hinj j i e d h g b a Ee Ed Hh Hg E) as [-> _]. congruence.
    + intros k. rewrite HK, in_concat. split.
      * intros (i & d & g & a & Hi & Hg & Hok & ->). exists (one (i, d)). split; [apply in_map; apply numbered_In; exact Hi|].
        unfold one. cbn [fst snd]. apply in_map_iff. exists (g, a). split; [reflexivity|]. apply filter_In. split; [apply numbered_In; exact Hg|exact Hok].
      * intros (l & Hl & Hk). apply in_map_iff in Hl. destruct Hl as ([i d] & <- & Hid). apply numbered_In in Hid. unfold one in Hk. cbn [fst snd] in Hk.
        apply in_map_iff in Hk. destruct Hk as ([g a] & <- & Hg). apply filter_In in Hg. destruct Hg as [Hg Hok]. apply numbered_In in Hg. exists i, d, g, a. auto.
  - rewrite length_concat_map. rewrite <- (numbered_sum (fun d => countb (fun ga => ok d (fst ga) (snd ga)) (numbered (f d))) ds).
    apply list_sum_nat_ext. intros [i d] _. unfold one. cbn [fst snd]. rewrite map_length. reflexivity.
Qed.

Lemma numbered_len {A} (l : list A) : length (numbered l) = length l.
Proof. unfold numbered. rewrite combine_length, seq_length. lia. Qed.

(* SPEC: something of the datum is left *)
Definition visible (w : dview) (d : detection) : bool :=
  negb (Nat.eqb (length (t_gts (pruned w d)) + length (t_pds (pruned w d))) 0).

Lemma sum_tables {K} (dec : forall x y : K, {x = y} + {x <> y}) (key : drow -> K) (P : drow -> bool) datums tables :
  aligned d_datum tables ->
  (forall a b, In a (concat tables) -> In b (concat tables) -> P a = true -> P b = true -> key a = key b -> d_datum a = d_datum b) ->
  list_sum_nat (map (fun tb => dcount dec key P (filter datums tb)) tables) = dcount dec key P (filter datums (concat tables)).
Proof.
  intros Ha Hk. rewrite filter_concat. rewrite <- (map_map (filter datums) (dcount dec key P)). symmetry. apply dcount_concat.
  intros i j li lj a b Hi Hj Hij Hai Hbj Pa Pb E. apply Hij. rewrite nth_error_map in Hi, Hj.
  destruct (nth_error tables i) as [ti|] eqn:Ei; [|discriminate]. destruct (nth_error tables j) as [tj|] eqn:Ej; [|discriminate].
  injection Hi as <-. injection Hj as <-. apply filter_In in Hai, Hbj. apply (Ha i j ti tj a b Ei Ej); [tauto|tauto|].
  apply Hk; auto; [apply (nth_error_concat_In tables i ti a Ei); tauto|apply (nth_error_concat_In tables j tj b Ej); tauto].
Qed.

Section Info.
  Variables (eps unit : Z) (ds : list detection) (L : list String.string) (w : dview) (e : deval).
  Hypothesis Hin : det_input unit ds.
  Hypothesis Hsh : shows eps unit ds L w e.
  Variables (datums : drow -> bool) (sel : detection -> bool).
  Hypothesis Hsel : det_selects ds datums sel.
  Local Notation T := (concat (de_detailed e)).
  Let Hg : good eps unit ds L w e := shows_good eps unit ds L w e Hin Hsh.
  Let Hw : world eps ds L w T := g_world _ _ _ _ _ _ Hg.

  Lemma info_sel r i d : In r T -> nth_error ds i = Some d -> d_datum r = Z.of_nat i -> datums r = sel d.
  Proof.
    intros Hr Hi E. destruct (row_datum eps ds L w (de_detailed e) Hw r Hr) as (i' & d' & Hi' & E' & U).
    assert (i' = i) by lia. subst i'. assert (d' = d) by congruence. subst d'. apply (Hsel r i d); assumption.
  Qed.

  Lemma info_gts gts sg : gt_filter ds L (Some gts) sg ->
    list_sum_nat (map (fun tb => dcount Z.eq_dec d_gt (fun r => gts r && (0 <=? d_gt r)%Z) (filter datums tb)) (de_detailed e))
    = list_sum_nat (map (fun d => length (t_gts (pruned (restrict w sel sg (fun _ _ _ => true)) d))) ds).
  Proof.
    intros Hf. rewrite (sum_tables Z.eq_dec d_gt).
    2: exact (g_aligned _ _ _ _ _ _ Hg).
    2:{ intros a b Ha Hb Pa _ E. apply andb_true_iff in Pa. destruct Pa as [_ Pa]. apply (w_gts_one eps unit ds L w e Hg a b Ha Hb); [lia|exact E]. }
    unfold dcount. rewrite (count_ids ds t_gts (fun d g _ => sel d && sg d g && v_gt w d g) (gt_id ds)).
    - apply list_sum_nat_ext. intros d _. cbn [pruned t_gts]. rewrite map_length. reflexivity.
    - intros i j d d' g h a b A1 A2 A3 A4 A5. apply (gt_id_inj ds i j d d' g h a b A1 A2 A3 A4 A5).
    - apply dkeys_NoDup.
    - intros k. rewrite dkeys_In. split.
      + intros (r & Hr & Hb & <-). apply filter_In in Hr. destruct Hr as [Hr Hd]. apply andb_true_iff in Hb. destruct Hb as [Hb1 Hb2].
        destruct (row_gt eps ds L w (de_detailed e) Hw r Hr) as (i & d & g & Hi & Cg & Vg); [lia|].
        assert (Cg' := Cg). destruct Cg' as (d' & ga & v' & gi & Hi' & Hga & Hl & Hx & _ & E1 & _ & E2 & _ & E3). assert (d' = d) by congruence. subst d'.
        exists i, d, g, ga. split; [exact Hi|]. split; [exact Hga|]. split; [|exact E2].
        rewrite Vg, <- (info_sel r i d Hr Hi E1), Hd. assert (X := Hf d i g Hi). cbn in X. rewrite <- (X (proj1 (nth_error_Some _ _) (fun C => eq_ind (Some ga) (fun o => match o with Some _ => True | None => False end) I _ (eq_trans (eq_sym Hga) C))) r Cg), Hb1. reflexivity.
      + intros (i & d & g & ga & Hi & Hga & Hok & ->). apply andb_true_iff in Hok. destruct Hok as [Hok Vg]. apply andb_true_iff in Hok. destruct Hok as [Hs Hsg].
        assert (Hlen : g < length (t_gts d)) by (apply nth_error_Some; congruence).
        destruct (w_gt_in _ _ _ _ _ Hw i d g Hi Hlen Vg) as (r & Hr & Cg). exists r.
        assert (Cg' := Cg). destruct Cg' as (d' & ga' & v' & gi & Hi' & Hga' & Hl & Hx & _ & E1 & _ & E2 & _ & E3).
        split; [apply filter_In; split; [exact Hr|rewrite (info_sel r i d Hr Hi E1); exact Hs]|]. split; [|exact E2].
        assert (X := Hf d i g Hi Hlen r Cg). rewrite X, Hsg. assert (N := cgt_pos ds L i g r Cg). cbn. lia.
  Qed.

  Lemma info_pds pds sp : pd_filter ds L (Some pds) sp ->
    list_sum_nat (map (fun tb => dcount Z.eq_dec d_pd (fun r => pds r && (0 <=? d_pd r)%Z) (filter datums tb)) (de_detailed e))
    = list_sum_nat (map (fun d => length (t_pds (pruned (restrict w sel (fun _ _ => true) sp) d))) ds).
  Proof.
    intros Hf. set (u := restrict w sel (fun _ _ => true) sp). rewrite (sum_tables Z.eq_dec d_pd).
    2: exact (g_aligned _ _ _ _ _ _ Hg).
    2:{ intros a b Ha Hb Pa _ E. apply andb_true_iff in Pa. destruct Pa as [_ Pa]. apply (w_pds_one eps unit ds L w e Hg a b Ha Hb); [lia|exact E]. }
    unfold dcount. rewrite (count_ids ds t_pds (fun d p a => negb (Nat.eqb (length (a_labels (kept_labels u d p a))) 0)) (pd_id ds)).
    - apply list_sum_nat_ext. intros d _. cbn [pruned t_pds]. rewrite map_length. unfold kept_pds, countb.
      induction (numbered (t_pds d)) as [|[p a] l IH]; [reflexivity|]. cbn [map filter fst snd].
      destruct (negb _); [exact (f_equal S IH)|exact IH].
    - intros i j d d' g h a b A1 A2 A3 A4 A5. apply (pd_id_inj ds i j d d' g h a b A1 A2 A3 A4 A5).
    - apply dkeys_NoDup.
    - intros k. rewrite dkeys_In. split.
      + intros (r & Hr & Hb & <-). apply filter_In in Hr. destruct Hr as [Hr Hd]. apply andb_true_iff in Hb. destruct Hb as [Hb1 Hb2].
        destruct (row_pd eps ds L w (de_detailed e) Hw r Hr) as (i & d & p & v & s & Hi & Cp & Vp); [lia|].
        assert (Cp' := Cp). destruct Cp' as (d' & pa & n & pi & Hi' & Hpa & Hn & Hs & Hx & _ & E1 & _ & E2 & _). assert (d' = d) by congruence. subst d'.
        exists i, d, p, pa. split; [exact Hi|]. split; [exact Hpa|]. split; [|exact E2].
        assert (Hl := scores_len unit ds Hin d p pa i Hi Hpa).
        assert (Hv : In v (a_labels (kept_labels u d p pa))).
        { apply labels_In; [exact Hl|]. split; [apply (nth_error_In _ _ Hn)|]. cbn. rewrite Vp, <- (info_sel r i d Hr Hi E1), Hd.
          assert (X := Hf d i p pa v Hi Hpa (nth_error_In _ _ Hn)). cbn in X. rewrite <- (X r s Cp), Hb1. reflexivity. }
        destruct (a_labels (kept_labels u d p pa)); [destruct Hv|reflexivity].
      + intros (i & d & p & pa & Hi & Hpa & Hok & ->). assert (Hl := scores_len unit ds Hin d p pa i Hi Hpa).
        destruct (a_labels (kept_labels u d p pa)) as [|v vs] eqn:Ev; [discriminate|].
        assert (Hv : In v (a_labels (kept_labels u d p pa))) by (rewrite Ev; left; reflexivity). apply labels_In in Hv; [|exact Hl]. destruct Hv as (Hv & V).
        cbn in V. apply andb_true_iff in V. destruct V as [V Vp]. apply andb_true_iff in V. destruct V as [Hs Hsp].
        assert (Hv' := Hv). apply In_nth_error in Hv. destruct Hv as (n & Hn). destruct (nth_error (a_scores pa) n) as [s|] eqn:Es.
        2:{ apply nth_error_None in Es. assert (n < length (a_labels pa)) by (apply nth_error_Some; congruence). lia. }
        destruct (w_pd_in _ _ _ _ _ Hw i d p pa n v s Hi Hpa Hn Es Vp) as (r & Hr & Cp). exists r.
        assert (Cp' := Cp). destruct Cp' as (d' & pa' & n' & pi & Hi' & Hpa' & Hn' & Hs' & Hx & _ & E1 & _ & E2 & _).
        split; [apply filter_In; split; [exact Hr|rewrite (info_sel r i d Hr Hi E1); exact Hs]|]. split; [|exact E2].
        assert (X := Hf d i p pa v Hi Hpa Hv' r s Cp). rewrite X, Hsp. assert (N := cpd_pos ds L i p v s r Cp). cbn. lia.
  Qed.

  Lemma info_datums :
    list_sum_nat (map (fun tb => dcount Z.eq_dec d_datum (fun _ => true) (filter datums tb)) (de_detailed e))
    = countb (fun d => sel d && visible w d) ds.
  Proof.
    rewrite (sum_tables Z.eq_dec d_datum); [|exact (g_aligned _ _ _ _ _ _ Hg)|auto].
    unfold dcount. rewrite (count_ids ds (fun _ => [tt]) (fun d _ _ => sel d && visible w d) (fun i _ => Z.of_nat i)).
    - clear. induction ds as [|d l IH]; [reflexivity|]. unfold countb in *. cbn [map filter]. destruct (sel d && visible w d) eqn:E; [exact (f_equal S IH)|exact IH].
    - intros i j d d' g h a b _ _ Hgx Hh E. split; [lia|]. destruct g as [|g]; [|destruct g; discriminate]. destruct h as [|h]; [reflexivity|destruct h; discriminate].
    - apply dkeys_NoDup.
    - assert (Hone : forall d, world eps ds L w T -> visible w d = true <-> (exists g ga, nth_error (t_gts d) g = Some ga /\ v_gt w d g = true) \/
                 (exists p pa, nth_error (t_pds d) p = Some pa /\ a_labels (kept_labels w d p pa) <> [])).
      { intros d _. unfold visible. rewrite negb_true_iff, Nat.eqb_neq. split.
        - intros H. destruct (t_gts (pruned w d)) as [|ga l] eqn:E.
          + right. destruct (t_pds (pruned w d)) as [|pa l'] eqn:E'; [cbn in H; lia|].
            assert (X : nth_error (t_pds (pruned w d)) 0 = Some pa) by (rewrite E'; reflexivity). apply pds_of in X. destruct X as (p & X). apply pds_nth in X.
            destruct X as (pa0 & X & -> & Y). eauto.
          + left. assert (X : nth_error (t_gts (pruned w d)) 0 = Some ga) by (rewrite E; reflexivity). apply gts_of in X. destruct X as (g & X). apply gts_nth in X. destruct X. eauto.
        - intros [(g & ga & A & B)|(p & pa & A & B)].
          + destruct (gts_cover w d g ga A B) as (j & Hj). assert (X : nth_error (t_gts (pruned w d)) j = Some ga) by (rewrite gts_tnth, Hj; reflexivity).
            assert (j < length (t_gts (pruned w d))) by (apply nth_error_Some; congruence). lia.
          + destruct (pds_cover w d p pa A B) as (j & Hj). assert (X : nth_error (t_pds (pruned w d)) j = Some (kept_labels w d p pa)) by (rewrite pds_tnth, Hj; reflexivity).
            assert (j < length (t_pds (pruned w d))) by (apply nth_error_Some; congruence). lia. }
      intros k. rewrite dkeys_In. split.
      + intros (r & Hr & _ & <-). apply filter_In in Hr. destruct Hr as [Hr Hd].
        assert (G : forall i d g, nth_error ds i = Some d -> carries_gt ds L i g r -> v_gt w d g = true -> d_datum r = Z.of_nat i /\ visible w d = true).
        { intros i d g Hi (d' & ga & v & gi & Hi' & Hga & _ & _ & _ & E1 & _) V. split; [exact E1|]. apply (Hone d Hw). left. assert (d' = d) by congruence. subst d'. eauto. }
        assert (P : forall i d p v s, nth_error ds i = Some d -> carries_pd ds L i p v s r -> v_pd w d p v = true -> d_datum r = Z.of_nat i /\ visible w d = true).
        { intros i d p v s Hi (d' & pa & n & pi & Hi' & Hpa & Hn & Hs & _ & _ & E1 & _) V. split; [exact E1|]. apply (Hone d Hw). right. assert (d' = d) by congruence. subst d'.
          exists p, pa. split; [exact Hpa|]. intros X. assert (Hv : In v (a_labels (kept_labels w d p pa))).
          { apply labels_In; [apply (scores_len unit ds Hin d p pa i Hi Hpa)|]. split; [apply (nth_error_In _ _ Hn)|exact V]. } rewrite X in Hv. destruct Hv. }
        assert (Q : exists i d, nth_error ds i = Some d /\ d_datum r = Z.of_nat i /\ visible w d = true).
        { destruct (w_rows _ _ _ _ _ Hw r Hr) as [(i & d & g & p & v & s & Hi & Cg & _ & _ & _ & V & _)|[(i & d & g & Hi & Cg & _ & _ & V)|(i & d & p & v & s & Hi & Cp & _ & _ & V)]];
            exists i, d; split; [exact Hi|eauto|exact Hi|eauto|exact Hi|eauto]. }
        destruct Q as (i & d & Hi & E1 & V). exists i, d, 0, tt. split; [exact Hi|]. split; [reflexivity|]. split; [|exact E1]. rewrite V, <- (info_sel r i d Hr Hi E1), Hd. reflexivity.
      + intros (i & d & g & a & Hi & _ & Hok & ->). apply andb_true_iff in Hok. destruct Hok as [Hs V]. apply (Hone d Hw) in V.
        assert (Q : exists r, In r T /\ d_datum r = Z.of_nat i).
        { destruct V as [(g' & ga & A & B)|(p & pa & A & B)].
          - destruct (w_gt_in _ _ _ _ _ Hw i d g' Hi) as (r & Hr & Cg); [apply nth_error_Some; congruence|exact B|]. exists r. split; [exact Hr|].
            destruct Cg as (? & ? & ? & ? & _ & _ & _ & _ & _ & E1 & _). exact E1.
          - destruct (a_labels (kept_labels w d p pa)) as [|v vs] eqn:Ev; [congruence|]. assert (Hl := scores_len unit ds Hin d p pa i Hi A).
            assert (Hv : In v (a_labels (kept_labels w d p pa))) by (rewrite Ev; left; reflexivity). apply labels_In in Hv; [|exact Hl]. destruct Hv as (Hv & V).
            apply In_nth_error in Hv. destruct Hv as (n & Hn). destruct (nth_error (a_scores pa) n) as [s|] eqn:Es.
            2:{ apply nth_error_None in Es. assert (n < length (a_labels pa)) by (apply nth_error_Some; congruence). lia. }
            destruct (w_pd_in _ _ _ _ _ Hw i d p pa n v s Hi A Hn Es V) as (r & Hr & Cp). exists r. split; [exact Hr|].
            destruct Cp as (? & ? & ? & ? & _ & _ & _ & _ & _ & _ & E1 & _). exact E1. }
        destruct Q as (r & Hr & E1). exists r. split; [apply filter_In; split; [exact Hr|rewrite (info_sel r i d Hr Hi E1); exact Hs]|]. auto.
  Qed.

  Theorem info_exact gts sg pds sp : gt_filter ds L (Some gts) sg -> pd_filter ds L (Some pds) sp ->
    det_info datums gts pds (de_detailed e) =
    (countb (fun d => sel d && visible w d) ds,
     list_sum_nat (map (fun d => length (t_gts (pruned (restrict w sel sg sp) d))) ds),
     list_sum_nat (map (fun d => length (t_pds (pruned (restrict w sel sg sp) d))) ds)).
  Proof.
    intros H1 H2. unfold det_info. rewrite info_datums, (info_gts gts sg H1), (info_pds pds sp H2). reflexivity.
  Qed.
End Info.

Theorem info_unfiltered eps unit ds e : det_input unit ds -> det_evaluator eps unit ds e ->
  Forall (fun d => Forall (fun a => a_labels a <> []) (t_pds d)) ds ->
  det_info (fun _ => true) (fun _ => true) (fun _ => true) (de_detailed e) =
  (countb (fun d => negb (Nat.eqb (length (t_gts d) + length (t_pds d)) 0)) ds,
   list_sum_nat (map (fun d => length (t_gts d)) ds),
   list_sum_nat (map (fun d => length (t_pds d)) ds)).
Proof.
  intros Hin He Hl. destruct (end_facts eps unit ds Hin e He) as (L & _ & _ & _ & B & _).
  assert (Hsh : shows eps unit ds L full_view e) by (apply Shows_built; assumption).
  rewrite (info_exact eps unit ds L full_view e Hin Hsh (fun _ => true) (fun _ => true) (all_selected ds) (fun _ => true) (fun _ _ => true) (fun _ => true) (fun _ _ _ => true)).
  2:{ intros d i g _ _ r _. reflexivity. }
  2:{ intros d i p pa v _ _ _ r s _. reflexivity. }
  assert (G : forall w d, (forall g, v_gt w d g = true) -> length (t_gts (pruned w d)) = length (t_gts d)).
  { intros w d H. cbn [pruned t_gts]. rewrite map_length. unfold kept_gts. rewrite <- (numbered_len (t_gts d)). f_equal. apply filter_all. intros [g a] _. apply H. }
  assert (P : forall w d, In d ds -> (forall p l, v_pd w d p l = true) -> length (t_pds (pruned w d)) = length (t_pds d)).
  { intros w d Hd H. cbn [pruned t_pds]. rewrite map_length. unfold kept_pds. rewrite filter_all.
    - rewrite map_length. apply numbered_len.
    - intros [p a'] Hp. apply in_map_iff in Hp. destruct Hp as ([q a] & E & Hq). injection E as <- <-. apply numbered_In in Hq. cbn [fst snd].
      assert (Hne := proj1 (Forall_forall _ _) (proj1 (Forall_forall _ _) Hl d Hd) a (nth_error_In _ _ Hq)).
      apply In_nth_error in Hd. destruct Hd as (i & Hi). assert (Hs := scores_len unit ds Hin d q a i Hi Hq).
      destruct (a_labels a) as [|v vs] eqn:Ev; [congruence|].
      assert (Hv : In v (a_labels (kept_labels w d q a))) by (apply labels_In; [rewrite Ev; exact Hs|]; rewrite Ev; split; [left; reflexivity|apply H]).
      destruct (a_labels (kept_labels w d q a)); [destruct Hv|reflexivity]. }
  f_equal; [f_equal|].
  - assert (V : forall d, In d ds -> (true && visible full_view d) = negb (Nat.eqb (length (t_gts d) + length (t_pds d)) 0)).
    { intros d Hd. unfold visible. rewrite G, P; auto. }
    unfold countb. f_equal. apply filter_ext_in. exact V.
  - f_equal. apply map_ext. intros d. apply G. reflexivity.
  - f_equal. apply map_ext_in. intros d Hd. apply P; [exact Hd|reflexivity].
Qed.
