(* The ranked predictions of an evaluator that shows a view: what each of them is, and
   the metrics as functions of that list. *)
From Verif Require Import Prelude Counting CacheModel CacheSpec CacheProofs SortProofs ClsModel ClsLabelProofs FlowModel
  DetModel DetExModel DetSpec DetRankProofs DetCountProofs DetLoaderProofs DetStoreProofs DetLocalProofs DetFlowModel DetFlowProofs
  DetOrderProofs DetMain DetApProofs DetReportModel DetEnd DetFilterModel DetFilterSpec DetTieOrder DetFilterProofs.
From Coq Require Import Lia QArith Qminmax.
From Coq Require String.
Local Open Scope nat_scope.
Local Open Scope list_scope.

(* SPEC: a prediction that takes part in the ranking of a label: datum, position,
   score, IoU, and the ground truth it is compared with, the first one if it overlaps
   several equally *)
Record aentry : Type := MkA { x_i : nat; x_p : nat; x_sc : Z; x_z : Z; x_c : option nat }.

Definition small_labels (L : list String.string) : Prop := forall v i, index_of v L = Some i -> (Z.of_nat i < 100000)%Z.

(* SPEC: the predictions of label [v] in view [w] *)
Definition entry (eps : Z) (ds : list detection) (w : dview) (v : String.string) (x : aentry) : Prop :=
  exists d pa n, nth_error ds (x_i x) = Some d /\ nth_error (t_pds d) (x_p x) = Some pa /\
    nth_error (a_labels pa) n = Some v /\ nth_error (a_scores pa) n = Some (x_sc x) /\ v_pd w d (x_p x) v = true /\
    match x_c x with
    | Some g =>
        (exists ga, nth_error (t_gts d) g = Some ga /\ a_labels ga = [v]) /\ v_gt w d g = true /\ (eps <= t_iou d (x_p x) g)%Z /\
        x_z x = t_iou d (x_p x) g /\
        (forall g' ga', nth_error (t_gts d) g' = Some ga' -> a_labels ga' = [v] -> v_gt w d g' = true -> (t_iou d (x_p x) g' <= x_z x)%Z) /\
        (forall g' ga', nth_error (t_gts d) g' = Some ga' -> a_labels ga' = [v] -> v_gt w d g' = true -> g' < g -> (t_iou d (x_p x) g' < x_z x)%Z)
    | None =>
        (forall v' g ga, In v' (a_labels pa) -> v_pd w d (x_p x) v' = true -> nth_error (t_gts d) g = Some ga -> a_labels ga = [v'] ->
           v_gt w d g = true -> (t_iou d (x_p x) g < eps)%Z) /\
        ((exists g, g < length (t_gts d) /\ v_gt w d g = true /\ (eps <= t_iou d (x_p x) g)%Z /\ x_z x = t_iou d (x_p x) g /\
            forall g', g' < length (t_gts d) -> v_gt w d g' = true -> (t_iou d (x_p x) g' <= x_z x)%Z) \/
         (x_z x = 0%Z /\ forall g, g < length (t_gts d) -> v_gt w d g = true -> (t_iou d (x_p x) g < eps)%Z))
    end.

Lemma entry_unique eps ds w v x y : Forall distinct_pd_labels ds ->
  entry eps ds w v x -> entry eps ds w v y -> x_i x = x_i y -> x_p x = x_p y -> x = y.
Proof.
  intros Hdis (d & pa & n & Hi & Hp & Hn & Hs & Hv & Hc) (d' & pa' & n' & Hi' & Hp' & Hn' & Hs' & Hv' & Hc') Ei Ep.
  destruct x as [i p sc z c], y as [i' p' sc' z' c']. cbn in *. subst i' p'.
  assert (d' = d) by congruence. subst d'. assert (pa' = pa) by congruence. subst pa'.
  rewrite Forall_forall in Hdis. specialize (Hdis d (nth_error_In _ _ Hi) pa (nth_error_In _ _ Hp)).
  assert (n' = n). { eapply NoDup_nth_error; [exact Hdis|apply nth_error_Some; congruence|congruence]. } subst n'.
  assert (sc' = sc) by congruence. subst sc'.
  destruct c as [g|], c' as [g'|].
  - destruct Hc as ((ga & Hg & Hl) & Vg & Ho & Ez & Hm & Hf). destruct Hc' as ((ga' & Hg' & Hl') & Vg' & Ho' & Ez' & Hm' & Hf').
    assert (A := Hm g' ga' Hg' Hl' Vg'). assert (B := Hm' g ga Hg Hl Vg). assert (C := Hf g' ga' Hg' Hl' Vg'). assert (D := Hf' g ga Hg Hl Vg).
    assert (g = g') by lia.
    subst g'. f_equal. congruence.
  - destruct Hc as ((ga & Hg & Hl) & Vg & Ho & Ez & Hm). destruct Hc' as (Hno & _).
    assert (A := Hno v g ga (nth_error_In _ _ Hn) Hv Hg Hl Vg). lia.
  - destruct Hc' as ((ga & Hg & Hl) & Vg & Ho & Ez & Hm). destruct Hc as (Hno & _).
    assert (A := Hno v g' ga (nth_error_In _ _ Hn) Hv Hg Hl Vg). lia.
  - destruct Hc as (_ & [(g & Hg & Vg & Ho & Ez & Hm)|(Ez & Hm)]), Hc' as (_ & [(g' & Hg' & Vg' & Ho' & Ez' & Hm')|(Ez' & Hm')]).
    + f_equal. specialize (Hm g' Hg' Vg'). specialize (Hm' g Hg Vg). lia.
    + specialize (Hm' g Hg Vg). lia.
    + specialize (Hm g' Hg' Vg'). lia.
    + congruence.
Qed.

Section Rows.
  Variables (eps unit : Z) (ds : list detection) (L : list String.string) (w : dview) (e : deval).
  Hypothesis Heps : (0 < eps)%Z.
  Hypothesis Hu : (0 <= unit)%Z.
  Hypothesis Hin : det_input unit ds.
  Hypothesis Hg : good eps unit ds L w e.
  Hypothesis Hsmall : small_labels L.
  Hypothesis Hdis : Forall distinct_pd_labels ds.
  Local Notation cgt := (carries_gt ds L).
  Local Notation cpd := (carries_pd ds L).
  Local Notation T := (concat (de_detailed e)).
  Local Notation R := (concat (de_ranked e)).

  Let Hw : world eps ds L w T := g_world _ _ _ _ _ _ Hg.
  Let Hal : aligned d_datum (de_detailed e) := g_aligned _ _ _ _ _ _ Hg.

  (* basic facts about the rows *)
  Lemma w_labels : labels_small T.
  Proof.
    assert (G : forall i g r, cgt i g r -> (-1 <= d_gl r < 100000)%Z).
    { intros i g r (d & ga & v & gi & _ & _ & _ & Hx & _ & _ & _ & _ & _ & E). rewrite E. specialize (Hsmall v gi Hx). lia. }
    assert (P : forall i p v s r, cpd i p v s r -> (-1 <= d_pl r < 100000)%Z).
    { intros i p v s r (d & pa & n & pi & _ & _ & _ & _ & Hx & _ & _ & _ & _ & _ & E & _). rewrite E. specialize (Hsmall v pi Hx). lia. }
    intros r Hr. destruct (w_rows _ _ _ _ _ Hw r Hr) as [(i & d & g & p & v & s & _ & A & B & _)|[(i & d & g & _ & A & B & _)|(i & d & p & v & s & _ & A & B & _)]].
    - eauto.
    - destruct B as (_ & B & _). split; [eauto|lia].
    - destruct B as (_ & B). split; [lia|eauto].
  Qed.
  Lemma w_match r : In r T -> label_match r = (d_gl r =? d_pl r)%Z.
  Proof. intros Hr. destruct (w_labels r Hr). apply label_match_small; assumption. Qed.
  Lemma w_ious : ious_ok unit T.
  Proof.
    intros r Hr. unfold det_input in Hin. rewrite Forall_forall in Hin.
    destruct (w_rows _ _ _ _ _ Hw r Hr) as [(i & d & g & p & v & s & Hi & _ & _ & _ & E & _)|[(i & d & g & Hi & _ & _ & E & _)|(i & d & p & v & s & Hi & _ & _ & E & _)]];
      rewrite E; [|lia|lia]. destruct (Hin d (nth_error_In _ _ Hi)) as (_ & _ & Ho). apply Ho.
  Qed.
  Lemma w_pair_iou r i d g p v s : In r T -> nth_error ds i = Some d -> cgt i g r -> cpd i p v s r -> d_iou r = t_iou d p g /\ (eps <= t_iou d p g)%Z.
  Proof.
    intros Hr Hi Hc Hp. destruct (w_rows _ _ _ _ _ Hw r Hr) as [(i' & d' & g' & p' & v' & s' & Hi' & A & B & C & D & _)|[(i' & d' & g' & _ & _ & (B & _) & _)|(i' & d' & p' & v' & s' & _ & _ & (B & _) & _)]].
    - destruct (cgt_same ds L i g i' g' r r Hc A eq_refl) as [<- <-]. destruct (cpd_same ds L i p i p' v v' s s' r r Hp B eq_refl) as [_ <-].
      assert (d' = d) by congruence. subst d'. auto.
    - assert (X := cpd_pos ds L i p v s r Hp). lia.
    - assert (X := cgt_pos ds L i g r Hc). lia.
  Qed.
  Lemma w_view_gt r i d g : In r T -> nth_error ds i = Some d -> cgt i g r -> v_gt w d g = true.
  Proof.
    intros Hr Hi Hc. destruct (row_gt eps ds L w (de_detailed e) Hw r Hr (cgt_pos ds L i g r Hc)) as (i' & d' & g' & Hi' & Hc' & V).
    destruct (cgt_same ds L i g i' g' r r Hc Hc' eq_refl) as [<- <-]. congruence.
  Qed.
  Lemma w_view_pd r i d p v s : In r T -> nth_error ds i = Some d -> cpd i p v s r -> v_pd w d p v = true.
  Proof.
    intros Hr Hi Hc. destruct (row_pd eps ds L w (de_detailed e) Hw r Hr (cpd_pos ds L i p v s r Hc)) as (i' & d' & p' & v' & s' & Hi' & Hc' & V).
    destruct (cpd_same ds L i p i' p' v v' s s' r r Hc Hc' eq_refl) as [<- <-].
    assert (v' = v) by (symmetry; apply (cpd_label ds L i p i p v v' s s' r r Hc Hc' eq_refl)). subst v'. congruence.
  Qed.
  Lemma w_same_label r i g p v s : In r T -> cgt i g r -> cpd i p v s r ->
    label_match r = true <-> exists d ga, nth_error ds i = Some d /\ nth_error (t_gts d) g = Some ga /\ a_labels ga = [v].
  Proof.
    intros Hr (d & ga & v' & gi & Hi & Hga & Hl & Hx & _ & _ & _ & _ & _ & E) (d2 & pa & n & pi & Hi2 & _ & _ & _ & Hx2 & _ & _ & _ & _ & _ & E2 & _).
    rewrite (w_match r Hr), Z.eqb_eq, E, E2. split.
    - intros X. exists d, ga. split; [exact Hi|]. split; [exact Hga|]. rewrite Hl. f_equal. apply (index_of_inj v' v L gi Hx). replace gi with pi by lia. exact Hx2.
    - intros (d' & ga' & A & B & C). assert (d' = d) by congruence. subst d'. assert (ga' = ga) by congruence. subst ga'. assert (v' = v) by congruence. subst v'. congruence.
  Qed.
  Lemma w_pds_one : pds_in_one_datum T.
  Proof.
    intros a b Ha Hb H0 E. destruct (row_pd eps ds L w (de_detailed e) Hw a Ha H0) as (i & d & p & v & s & _ & Hc & _).
    destruct (row_pd eps ds L w (de_detailed e) Hw b Hb) as (i' & d' & p' & v' & s' & _ & Hc' & _); [lia|].
    destruct (cpd_same ds L i p i' p' v v' s s' a b Hc Hc' E) as [<- <-]. rewrite (cpd_datum ds L i p v s a Hc), (cpd_datum ds L i p v' s' b Hc'). reflexivity.
  Qed.
  Lemma w_gts_one : gts_in_one_datum T.
  Proof.
    intros a b Ha Hb H0 E. destruct (row_gt eps ds L w (de_detailed e) Hw a Ha H0) as (i & d & g & _ & Hc & _).
    destruct (row_gt eps ds L w (de_detailed e) Hw b Hb) as (i' & d' & g' & _ & Hc' & _); [lia|].
    destruct (cgt_same ds L i g i' g' a b Hc Hc' E) as [<- <-]. rewrite (cgt_datum ds L i g a Hc), (cgt_datum ds L i g b Hc'). reflexivity.
  Qed.
  Lemma w_table tb r r' : In tb (de_detailed e) -> In r tb -> In r' T -> d_datum r = d_datum r' -> In r' tb.
  Proof.
    intros Htb Hr Hr' E. apply in_concat in Hr'. destruct Hr' as (t' & Ht' & Hr'). apply In_nth_error in Htb, Ht'.
    destruct Htb as (i & Hi), Ht' as (j & Hj). assert (i = j) by (apply (Hal i j tb t' r r' Hi Hj Hr Hr' E)). subst j. congruence.
  Qed.
  Lemma w_ranked_ok : ranked_ok R.
  Proof. apply (ranked_is_ok unit (de_detailed e)); [exact Hu|exact w_ious|exact w_labels|exact Hal|apply (g_ranked _ _ _ _ _ _ Hg)]. Qed.

  (* the entry a ranked row stands for *)
  Definition abs (r : drow) : aentry :=
    let i := Z.to_nat (d_datum r) in
    MkA i (Z.to_nat (d_pd r) - pds_before ds i) (d_score r) (d_iou r)
      (if (d_gl r =? d_pl r)%Z then Some (Z.to_nat (d_gt r) - gts_before ds i) else None).
  Lemma abs_strip r r0 : strip r0 = strip r -> abs r0 = abs r.
  Proof. intros E. apply strip_fields in E. destruct E as (E1 & E2 & E3 & E4 & E5 & E6 & E7). unfold abs. rewrite E1, E2, E3, E4, E5, E6, E7. reflexivity. Qed.

  Lemma cpd_abs i p v s r : cpd i p v s r -> x_i (abs r) = i /\ x_p (abs r) = p /\ x_sc (abs r) = s.
  Proof.
    intros (d & pa & n & pi & _ & _ & _ & _ & _ & _ & E1 & _ & E2 & _ & _ & E3). unfold abs. cbn. rewrite E1, E2, E3, Nat2Z.id. unfold pd_id. rewrite Nat2Z.id.
    split; [reflexivity|]. split; [lia|reflexivity].
  Qed.
  Lemma cgt_abs i g r : cgt i g r -> x_c (abs r) = if (d_gl r =? d_pl r)%Z then Some g else None.
  Proof.
    intros (d & ga & v & gi & _ & _ & _ & _ & _ & E1 & _ & E2 & _). unfold abs. cbn. rewrite E1, E2, Nat2Z.id. unfold gt_id. rewrite Nat2Z.id.
    destruct (d_gl r =? d_pl r)%Z; [f_equal; lia|reflexivity].
  Qed.
  Lemma cpd_key i p v s r v' s' r' : cpd i p v s r -> cpd i p v' s' r' -> v = v' -> pd_key r = pd_key r'.
  Proof.
    intros (d & pa & n & pi & _ & _ & _ & _ & A & _ & E1 & _ & E2 & _ & E3 & _) (d' & pa' & n' & pi' & _ & _ & _ & _ & A' & _ & E1' & _ & E2' & _ & E3' & _) <-.
    unfold pd_key. rewrite E1, E2, E3, E1', E2', E3'. congruence.
  Qed.
  Lemma cpd_score i p v s s' r r' : cpd i p v s r -> cpd i p v s' r' -> s = s'.
  Proof.
    intros (d & pa & n & pi & Hi & Hp & Hn & Hs & _) (d' & pa' & n' & pi' & Hi' & Hp' & Hn' & Hs' & _).
    assert (d' = d) by congruence. subst d'. assert (pa' = pa) by congruence. subst pa'.
    pose proof Hdis as HD. rewrite Forall_forall in HD. specialize (HD d (nth_error_In _ _ Hi) pa (nth_error_In _ _ Hp)).
    assert (n' = n). { eapply NoDup_nth_error; [exact HD|apply nth_error_Some; congruence|congruence]. } congruence.
  Qed.

  Lemma best_iou tb r0 r' i p v s s' : In tb (de_detailed e) -> In r0 tb -> In r' T -> cpd i p v s r0 -> cpd i p v s' r' ->
    eligible tb r' -> (forall x, In x tb -> eligible tb x -> pd_key x = pd_key r0 -> det_leb r0 x = true) -> (d_iou r' <= d_iou r0)%Z.
  Proof.
    intros Htb Hr0 Hr' Hc Hc' He Hm. assert (Hr'tb : In r' tb).
    { apply (w_table tb r0 r' Htb Hr0 Hr'). rewrite (cpd_datum ds L i p v s r0 Hc), (cpd_datum ds L i p v s' r' Hc'). reflexivity. }
    assert (X := Hm r' Hr'tb He (cpd_key i p v s' r' v s r0 Hc' Hc eq_refl)). apply det_leb_spec in X.
    assert (s' = s) by (symmetry; apply (cpd_score i p v s s' r0 r' Hc Hc')). subst s'.
    destruct Hc as (? & ? & ? & ? & _ & _ & _ & _ & _ & _ & _ & _ & _ & _ & _ & E). destruct Hc' as (? & ? & ? & ? & _ & _ & _ & _ & _ & _ & _ & _ & _ & _ & _ & E'). lia.
  Qed.

  Lemma ranked_entry_aux tb r0 : In tb (de_detailed e) -> In r0 tb -> eligible tb r0 ->
    (forall x, In x tb -> eligible tb x -> pd_key x = pd_key r0 -> det_leb r0 x = true) ->
    (forall x, In x tb -> eligible tb x -> pd_key x = pd_key r0 -> tie_order r0 x) ->
    exists i p v s, cpd i p v s r0 /\ entry eps ds w v (abs r0).
  Proof.
    intros Htb Hr0 He Hm Hti. assert (HrT : In r0 T) by (apply in_concat; eauto).
    destruct (w_rows _ _ _ _ _ Hw r0 HrT) as [(i & d & g & p & v & s & Hi & Cg & Cp & Ho & Eo & Vg & Vp)|[(i & d & g & _ & _ & (B & _) & _)|(i & d & p & v & s & Hi & Cp & (Lg1 & Lg2) & Eo & Vp)]].
    - exists i, p, v, s. split; [exact Cp|]. destruct (cpd_abs i p v s r0 Cp) as (A1 & A2 & A3). assert (A4 := cgt_abs i g r0 Cg).
      assert (Cp' := Cp). destruct Cp' as (d' & pa & n & pi & Hi' & Hp & Hn & Hsc & Hx & _ & _ & _ & _ & _ & Epl & _). assert (d' = d) by congruence. subst d'.
      exists d, pa, n. rewrite A1, A2, A3. split; [exact Hi|]. split; [exact Hp|]. split; [exact Hn|]. split; [exact Hsc|]. split; [exact Vp|].
      assert (Hlm := w_match r0 HrT). assert (Hsl := w_same_label r0 i g p v s HrT Cg Cp). rewrite A4. change (x_z (abs r0)) with (d_iou r0).
      destruct (d_gl r0 =? d_pl r0)%Z eqn:Em.
      + destruct (proj1 Hsl Hlm) as (d' & ga & Hi2 & Hga & Hl). assert (d' = d) by congruence. subst d'.
        split; [eauto|]. split; [exact Vg|]. split; [exact Ho|]. split; [exact Eo|].
        assert (Hri : forall g' ga', nth_error (t_gts d) g' = Some ga' -> a_labels ga' = [v] -> v_gt w d g' = true ->
          (t_iou d p g' <= d_iou r0)%Z /\ (g' < g -> (t_iou d p g' < d_iou r0)%Z)).
        { intros g' ga' Hg' Hl' Vg'. destruct (Z.lt_ge_cases (t_iou d p g') eps) as [X|X]; [lia|].
        assert (Hglen : g' < length (t_gts d)) by (apply nth_error_Some; congruence).
        destruct (w_pair_in _ _ _ _ _ Hw i d g' p pa n v s Hi Hglen Hp Hn Hsc X Vg' Vp) as (r' & Hr' & Cg' & Cp').
        assert (Hm' : label_match r' = true) by (apply (w_same_label r' i g' p v s Hr' Cg' Cp'); eauto).
        destruct (w_pair_iou r' i d g' p v s Hr' Hi Cg' Cp') as (<- & _).
        assert (Hel : eligible tb r') by (split; [apply (cpd_pos ds L i p v s r' Cp')|left; exact Hm']).
        assert (Hle : (d_iou r' <= d_iou r0)%Z) by (apply (best_iou tb r0 r' i p v s s Htb Hr0 Hr' Cp Cp'); [exact Hel|exact Hm]).
        split; [exact Hle|]. intros Hlt. destruct (Z.eq_dec (d_iou r') (d_iou r0)) as [Eq|Eq]; [exfalso|lia].
        assert (Hdd : d_datum r0 = d_datum r') by (rewrite (cpd_datum ds L i p v s r0 Cp), (cpd_datum ds L i p v s r' Cp'); reflexivity).
        assert (Hr'tb : In r' tb) by (apply (w_table tb r0 r' Htb Hr0 Hr' Hdd)).
        assert (X2 := Hti r' Hr'tb Hel (cpd_key i p v s r' v s r0 Cp' Cp eq_refl)). unfold tie_order in X2.
        assert (Esc : d_score r0 = d_score r').
        { destruct Cp as (? & ? & ? & ? & _ & _ & _ & _ & _ & _ & _ & _ & _ & _ & _ & F1). destruct Cp' as (? & ? & ? & ? & _ & _ & _ & _ & _ & _ & _ & _ & _ & _ & _ & F2). congruence. }
        specialize (X2 (cgt_pos ds L i g r0 Cg) (cgt_pos ds L i g' r' Cg') (cpd_pos ds L i p v s r0 Cp) (cpd_pos ds L i p v s r' Cp') Hdd Esc (eq_sym Eq)).
        destruct Cg as (? & ? & ? & ? & _ & _ & _ & _ & _ & _ & _ & F1 & _). destruct Cg' as (? & ? & ? & ? & _ & _ & _ & _ & _ & _ & _ & F2 & _).
        rewrite F1, F2 in X2. unfold gt_id in X2. lia. }
        split; intros g' ga' Hg' Hl' Vg'; destruct (Hri g' ga' Hg' Hl' Vg'); assumption.
      + destruct He as [_ [He|He]]; [congruence|]. 
        assert (Hel : forall r' s', In r' T -> cpd i p v s' r' -> eligible tb r').
        { intros r' s' Hr' Cp'. split; [apply (cpd_pos ds L i p v s' r' Cp')|]. right. intros x Hxt Ex. apply He; [exact Hxt|].
          assert (K := cpd_key i p v s' r' v s r0 Cp' Cp eq_refl). unfold pd_key in K. congruence. }
        split.
        * intros v' g' ga' Hv' Vp' Hg' Hl' Vg'. destruct (Z.lt_ge_cases (t_iou d p g') eps) as [X|X]; [exact X|]. exfalso.
          assert (Hglen : g' < length (t_gts d)) by (apply nth_error_Some; congruence).
          apply In_nth_error in Hv'. destruct Hv' as (n' & Hn').
          assert (exists s', nth_error (a_scores pa) n' = Some s') as (s' & Hs').
          { unfold det_input in Hin. rewrite Forall_forall in Hin. destruct (Hin d (nth_error_In _ _ Hi)) as (Hdo & _ & _).
            unfold det_ok in Hdo. rewrite !andb_true_iff in Hdo. destruct Hdo as [_ Hok]. rewrite forallb_forall in Hok.
            specialize (Hok pa (nth_error_In _ _ Hp)). apply Nat.eqb_eq in Hok.
            destruct (nth_error (a_scores pa) n') eqn:En; [eauto|]. apply nth_error_None in En. assert (n' < length (a_labels pa)) by (apply nth_error_Some; congruence). lia. }
          destruct (w_pair_in _ _ _ _ _ Hw i d g' p pa n' v' s' Hi Hglen Hp Hn' Hs' X Vg' Vp') as (r' & Hr' & Cg' & Cp').
          assert (Hm' : label_match r' = true) by (apply (w_same_label r' i g' p v' s' Hr' Cg' Cp'); eauto).
          rewrite (He r') in Hm'; [discriminate| |].
          -- apply (w_table tb r0 r' Htb Hr0 Hr'). rewrite (cpd_datum ds L i p v s r0 Cp), (cpd_datum ds L i p v' s' r' Cp'). reflexivity.
          -- destruct Cp as (? & ? & ? & ? & _ & _ & _ & _ & _ & _ & _ & _ & E1 & _). destruct Cp' as (? & ? & ? & ? & _ & _ & _ & _ & _ & _ & _ & _ & E2 & _). congruence.
        * left. exists g. assert (Hglen : g < length (t_gts d)).
          { destruct Cg as (d' & ga & ? & ? & A & B & _). assert (d' = d) by congruence. subst d'. apply nth_error_Some. congruence. }
          split; [exact Hglen|]. split; [exact Vg|]. split; [exact Ho|]. split; [exact Eo|].
          intros g' Hglen' Vg'. destruct (Z.lt_ge_cases (t_iou d p g') eps) as [X|X]; [lia|].
          destruct (w_pair_in _ _ _ _ _ Hw i d g' p pa n v s Hi Hglen' Hp Hn Hsc X Vg' Vp) as (r' & Hr' & Cg' & Cp').
          destruct (w_pair_iou r' i d g' p v s Hr' Hi Cg' Cp') as (<- & _).
          apply (best_iou tb r0 r' i p v s s Htb Hr0 Hr' Cp Cp'); [apply (Hel r' s Hr' Cp')|exact Hm].
    - destruct He as [He _]. lia.
    - exists i, p, v, s. split; [exact Cp|]. destruct (cpd_abs i p v s r0 Cp) as (A1 & A2 & A3).
      assert (Cp' := Cp). destruct Cp' as (d' & pa & n & pi & Hi' & Hp & Hn & Hsc & Hx & _ & _ & _ & _ & _ & Epl & _). assert (d' = d) by congruence. subst d'.
      assert (Em : (d_gl r0 =? d_pl r0)%Z = false) by lia. assert (A4 : x_c (abs r0) = None) by (unfold abs; cbn; rewrite Em; reflexivity).
      exists d, pa, n. rewrite A1, A2, A3, A4. split; [exact Hi|]. split; [exact Hp|]. split; [exact Hn|]. split; [exact Hsc|]. split; [exact Vp|].
      destruct He as [_ [He|He]]; [rewrite (w_match r0 HrT), Em in He; discriminate|].
      assert (Hno : forall g, g < length (t_gts d) -> v_gt w d g = true -> (t_iou d p g < eps)%Z).
      { intros g' Hglen' Vg'. destruct (Z.lt_ge_cases (t_iou d p g') eps) as [X|X]; [exact X|]. exfalso.
        destruct (w_pair_in _ _ _ _ _ Hw i d g' p pa n v s Hi Hglen' Hp Hn Hsc X Vg' Vp) as (r' & Hr' & Cg' & Cp').
        destruct (w_pair_iou r' i d g' p v s Hr' Hi Cg' Cp') as (E & _).
        assert (Y : (d_iou r' <= d_iou r0)%Z).
        { apply (best_iou tb r0 r' i p v s s Htb Hr0 Hr' Cp Cp'); [|exact Hm]. split; [apply (cpd_pos ds L i p v s r' Cp')|]. right.
          intros x Hxt Ex. apply He; [exact Hxt|]. assert (K := cpd_key i p v s r' v s r0 Cp' Cp eq_refl). unfold pd_key in K. congruence. }
        lia. }
      split.
      + intros v' g' ga' _ _ Hg' _ Vg'. apply Hno; [apply nth_error_Some; congruence|exact Vg'].
      + right. split; [exact Eo|exact Hno].
  Qed.

  Lemma table_ties t : In t (de_detailed e) -> StronglySorted tie_order t.
  Proof. intros Ht. apply (proj1 (ties_concat (de_detailed e)) (g_ties _ _ _ _ _ _ Hg)). exact Ht. Qed.
  Lemma ranked_entry r : In r R -> exists i p v s r0, In r0 T /\ strip r0 = strip r /\ cpd i p v s r0 /\ entry eps ds w v (abs r).
  Proof.
    intros Hr. destruct (ranked_In unit (de_detailed e) R r (g_ranked _ _ _ _ _ _ Hg) Hr) as (t & _ & Ht & _ & _ & Hrt).
    destruct (rank_table_In unit t r Hrt) as (r1 & Hr1 & E & Hr1t). assert (Hti := rank_pairs_first t r1 Hr1 (table_ties t Ht)).
    apply rank_pairs_In in Hr1. destruct Hr1 as (_ & He & Hm).
    destruct (ranked_entry_aux t r1 Ht Hr1t He Hm Hti) as (i & p & v & s & Cp & En). exists i, p, v, s, r1.
    split; [apply in_concat; eauto|]. split; [exact E|]. split; [exact Cp|]. rewrite <- (abs_strip r r1 E). exact En.
  Qed.

  Lemma entry_ranked x v vi : entry eps ds w v x -> index_of v L = Some vi -> exists r, In r R /\ d_pl r = Z.of_nat vi /\ abs r = x.
  Proof.
    intros Hx Hv. assert (Hx' := Hx). destruct Hx as (d & pa & n & Hi & Hp & Hn & Hs & Vp & Hc).
    set (i := x_i x) in *. set (p := x_p x) in *.
    assert (exists r1, In r1 T /\ cpd i p v (x_sc x) r1 /\ forall tb, In tb (de_detailed e) -> In r1 tb -> eligible tb r1) as (r1 & Hr1 & Cp & He).
    { destruct (x_c x) as [g|].
      - destruct Hc as ((ga & Hga & Hl) & Vg & Ho & _). assert (Hglen : g < length (t_gts d)) by (apply nth_error_Some; congruence).
        destruct (w_pair_in _ _ _ _ _ Hw i d g p pa n v (x_sc x) Hi Hglen Hp Hn Hs Ho Vg Vp) as (r1 & Hr1 & Cg & Cp). exists r1. split; [exact Hr1|]. split; [exact Cp|].
        intros tb _ _. split; [apply (cpd_pos ds L i p v _ r1 Cp)|]. left. apply (w_same_label r1 i g p v (x_sc x) Hr1 Cg Cp). eauto.
      - destruct Hc as (Hno & _). destruct (w_pd_in _ _ _ _ _ Hw i d p pa n v (x_sc x) Hi Hp Hn Hs Vp) as (r1 & Hr1 & Cp). exists r1. split; [exact Hr1|]. split; [exact Cp|].
        intros tb Htb Hr1tb. split; [apply (cpd_pos ds L i p v _ r1 Cp)|]. right. intros r' Hr' Ed. destruct (label_match r') eqn:Em; [|reflexivity]. exfalso.
        assert (Hr'T : In r' T) by (apply in_concat; eauto).
        destruct (w_rows _ _ _ _ _ Hw r' Hr'T) as [(i' & d' & g' & p' & v' & s' & Hi' & Cg' & Cp' & Ho' & Eo' & Vg' & Vp')|[(i' & d' & g' & _ & _ & (B & _) & _)|(i' & d' & p' & v' & s' & _ & Cp' & (B & B') & _)]].
        + destruct (cpd_same ds L i p i' p' v v' (x_sc x) s' r1 r' Cp Cp' (eq_sym Ed)) as [<- <-]. assert (d' = d) by congruence. subst d'.
          destruct (proj1 (w_same_label r' i g' p v' s' Hr'T Cg' Cp') Em) as (d' & ga' & A1 & A2 & A3). assert (d' = d) by congruence. subst d'.
          assert (Hv' : In v' (a_labels pa)). { destruct Cp' as (d' & pa' & n' & ? & B1 & B2 & B3 & _). assert (d' = d) by congruence. subst d'. assert (pa' = pa) by congruence. subst pa'. apply (nth_error_In _ _ B3). }
          assert (Y := Hno v' g' ga' Hv' Vp' A2 A3 Vg'). lia.
        + assert (Y := cpd_pos ds L i p v _ r1 Cp). lia.
        + rewrite (w_match r' Hr'T) in Em. apply Z.eqb_eq in Em. destruct Cp' as (? & ? & ? & ? & _ & _ & _ & _ & _ & _ & _ & _ & _ & _ & E & _). lia. }
    assert (Hr1c := Hr1). apply in_concat in Hr1. destruct Hr1 as (t & Ht & Hr1).
    destruct (rank_pairs_cover t r1 Hr1 (He t Ht Hr1)) as (r0 & Hr0 & Ek).
    assert (Hr0' := Hr0). apply rank_pairs_In in Hr0'. destruct Hr0' as (Hr0t & He0 & Hm0).
    assert (Hxx : In (strip r0) (map strip (rank_table unit t))) by (rewrite rank_table_strip; apply in_map; exact Hr0).
    apply in_map_iff in Hxx. destruct Hxx as (r & E1 & Hrt). exists r.
    destruct (ranked_entry_aux t r0 Ht Hr0t He0 Hm0 (rank_pairs_first t r0 Hr0 (table_ties t Ht))) as (i' & p' & v' & s' & Cp' & En).
    assert (Ek' := Ek). unfold pd_key in Ek'. injection Ek' as K1 K2 K3.
    destruct (cpd_same ds L i' p' i p v' v s' (x_sc x) r0 r1 Cp' Cp K2) as [-> ->]. assert (v' = v) by (apply (cpd_label ds L i p i p v' v s' (x_sc x) r0 r1 Cp' Cp K3)). subst v'.
    destruct (cpd_abs i p v s' r0 Cp') as (A1 & A2 & _).
    split; [|split].
    - apply (Permutation_in _ (stable_sort_perm _ (row_leb_total det_sorting) (row_leb_trans det_sorting) _ _ (g_ranked _ _ _ _ _ _ Hg))).
      apply in_concat. exists (rank_table unit t). split; [apply in_map; exact Ht|exact Hrt].
    - apply strip_fields in E1. destruct E1 as (_ & _ & _ & _ & E1 & _). rewrite E1, K3.
      destruct Cp as (? & ? & ? & pi & _ & _ & _ & _ & Hx2 & _ & _ & _ & _ & _ & E & _). rewrite E. congruence.
    - rewrite (abs_strip r0 r E1). apply (entry_unique eps ds w v); auto.
  Qed.
End Rows.

(* ------------------------------------------------------------------ *)
(** * The list of entries *)

Lemma entry_selected eps ds w sel v x : entry eps ds (by_selection w sel) v x <->
  entry eps ds w v x /\ exists d, nth_error ds (x_i x) = Some d /\ sel d = true.
Proof.
  unfold entry, by_selection. cbn [v_gt v_pd restrict]. split.
  - intros (d & pa & n & Hi & Hp & Hn & Hs & Vp & Hc). assert (Hsel : sel d = true) by (destruct (sel d); [reflexivity|discriminate]).
    split; [|eauto]. exists d, pa, n. rewrite Hsel in Vp, Hc. cbn [andb] in Vp, Hc. auto 12.
  - intros ((d & pa & n & Hi & Hp & Hn & Hs & Vp & Hc) & d' & Hi' & Hsel). assert (d' = d) by congruence. subst d'.
    exists d, pa, n. rewrite Hsel. cbn [andb]. auto 12.
Qed.

(* SPEC: by score, then IoU, then datum, then position *)
Definition a_le (x y : aentry) : Prop :=
  (x_sc y < x_sc x)%Z \/ (x_sc y = x_sc x /\ ((x_z y < x_z x)%Z \/ (x_z y = x_z x /\ (x_i x < x_i y \/ (x_i x = x_i y /\ x_p x <= x_p y))))).
Record canonical (eps : Z) (ds : list detection) (w : dview) (v : String.string) (l : list aentry) : Prop := {
  can_in : forall x, In x l <-> entry eps ds w v x;
  can_nodup : NoDup l;
  can_sorted : StronglySorted a_le l
}.
Lemma canonical_unique eps ds w v l1 l2 : Forall distinct_pd_labels ds ->
  canonical eps ds w v l1 -> canonical eps ds w v l2 -> l1 = l2.
Proof.
  intros Hd [A1 A2 A3] [B1 B2 B3]. apply (sorted_same_In a_le); [|exact A3|exact B3|].
  - intros x y Hx Hy H1 H2. apply A1 in Hx, Hy. apply (entry_unique eps ds w v); auto; unfold a_le in *; lia.
  - apply NoDup_Permutation; [exact A2|exact B2|]. intros x. rewrite A1, B1. reflexivity.
Qed.

(* SPEC: the first entry of the list to reach a ground truth is a hit *)
Definition ahit (t : Z) (pre : list aentry) (x : aentry) : bool :=
  match x_c x with
  | Some g => (t <=? x_z x)%Z && negb (existsb (fun y => match x_c y with Some g' => Nat.eqb (x_i y) (x_i x) && Nat.eqb g' g && (t <=? x_z y)%Z | None => false end) pre)
  | None => false
  end.
Fixpoint ahits (eps t : Z) (pre l : list aentry) : list bool :=
  match l with
  | [] => []
  | x :: l' => ((eps <? x_sc x)%Z && ahit t pre x) :: ahits eps t (pre ++ [x]) l'
  end.

Lemma ahits_map eps t (f : drow -> aentry) (h : drow -> bool) RL : forall pre,
  (forall l1 r l2, RL = l1 ++ r :: l2 -> h r = (eps <? x_sc (f r))%Z && ahit t (pre ++ map f l1) (f r)) ->
  map h RL = ahits eps t pre (map f RL).
Proof.
  induction RL as [|r RL IH]; intros pre H; [reflexivity|]. cbn [map ahits]. f_equal.
  - rewrite (H [] r RL eq_refl). cbn [map]. rewrite app_nil_r. reflexivity.
  - apply IH. intros l1 r' l2 E. rewrite (H (r :: l1) r' l2); [|cbn; congruence]. cbn [map]. rewrite <- app_assoc. reflexivity.
Qed.

Lemma curve_of_hits eps t n R l b :
  fst (upd_curve n (fst (running eps t run0 R)) curve0 l b)
  = fold_left (fun m p => Qmax m (qnat (snd p) / qnat (fst p))) (filter (fun p => Nat.eqb (100 * snd p / n l) b)
      (pr_list 0 0 (map (tp_outer eps t) (filter (fun r => (d_pl r =? l)%Z) R)))) 0%Q.
Proof.
  assert (E := running_label eps t l R run0). unfold run0 at 2 3 in E. cbn [fst snd] in E. rewrite <- E. clear E.
  unfold upd_curve, curve0. cbn [fst]. generalize 0%Q. induction (fst (running eps t run0 R)) as [|p pts IH]; intros m; [reflexivity|].
  cbn [filter]. unfold pt_in at 1. destruct (d_pl (fst (fst p)) =? l)%Z eqn:El; cbn [andb map filter]; [|apply IH].
  apply Z.eqb_eq in El. unfold pt_bin. rewrite El. cbn [fst snd].
  destruct (Nat.eqb (100 * snd p / n l) b); cbn [fold_left]; [|apply IH]. unfold pt_precision at 2. cbn [fst snd]. apply IH.
Qed.

Lemma gt_keys_length rows l : gts_in_one_datum rows ->
  dcount zz_dec (fun r => (d_gt r, d_gl r)) (fun r => (0 <=? d_gt r)%Z && (d_gl r =? l)%Z) rows
  = dcount zzz_dec gt_key (fun r => (0 <=? d_gt r)%Z && (d_gl r =? l)%Z) rows.
Proof.
  intros H1. unfold dcount. rewrite <- (map_length (fun k : Z * Z * Z => (snd (fst k), snd k)) (dkeys zzz_dec _ _ _)).
  apply Permutation_length, NoDup_Permutation; [apply dkeys_NoDup| |].
  - assert (Hk : forall k, In k (dkeys zzz_dec gt_key (fun r => (0 <=? d_gt r)%Z && (d_gl r =? l)%Z) rows) -> exists r, In r rows /\ (0 <= d_gt r)%Z /\ gt_key r = k).
    { intros k Hk. apply dkeys_In in Hk. destruct Hk as (a & Ha & Hb & E). apply andb_true_iff in Hb. destruct Hb as [Hb _]. apply Z.leb_le in Hb. eauto. }
    assert (HN := dkeys_NoDup zzz_dec gt_key (fun r => (0 <=? d_gt r)%Z && (d_gl r =? l)%Z) rows).
    induction (dkeys _ _ _ _) as [|k ks IH]; [constructor|]. inversion HN as [|? ? Hn Hd]; subst. cbn [map]. constructor.
    + intros Hc. apply in_map_iff in Hc. destruct Hc as (k' & E & Hk'). apply Hn.
      destruct (Hk k (or_introl eq_refl)) as (a & Ha & Ha0 & <-). destruct (Hk k' (or_intror Hk')) as (b & Hb & Hb0 & <-).
      assert (gt_key a = gt_key b) as ->; [|exact Hk']. unfold gt_key in *. cbn in E. inversion E.
      assert (d_datum a = d_datum b); [|congruence]. apply (H1 a b); auto.
    + apply IH; [intros; apply Hk; right; assumption|exact Hd].
  - intros k. rewrite dkeys_In, in_map_iff. split.
    + intros (a & Ha & Hb & <-). exists (gt_key a). split; [reflexivity|]. apply dkeys_In. eauto.
    + intros (k' & <- & Hk'). apply dkeys_In in Hk'. destruct Hk' as (a & Ha & Hb & <-). exists a. auto.
Qed.

Section Lists.
  Variables (eps unit : Z) (ds : list detection) (L : list String.string) (w : dview) (e : deval).
  Hypothesis Heps : (0 < eps)%Z.
  Hypothesis Hu : (0 <= unit)%Z.
  Hypothesis Hin : det_input unit ds.
  Hypothesis Hg : good eps unit ds L w e.
  Hypothesis Hsmall : small_labels L.
  Hypothesis Hdis : Forall distinct_pd_labels ds.
  Variables (datums : drow -> bool) (sel : detection -> bool).
  Hypothesis Hsel : det_selects ds datums sel.
  Local Notation cgt := (carries_gt ds L).
  Local Notation cpd := (carries_pd ds L).
  Local Notation T := (concat (de_detailed e)).
  Local Notation R := (concat (de_ranked e)).
  Local Notation ids := (sel_rows ds sel).
  Local Notation u := (by_selection w sel).
  Let Hw : world eps ds L w T := g_world _ _ _ _ _ _ Hg.
  Let Rok : ranked_ok R := w_ranked_ok eps unit ds L w e Hu Hin Hg Hsmall.

  Lemma detailed_ids r : In r T -> datums r = ids r.
  Proof.
    intros Hr. destruct (row_datum eps ds L w (de_detailed e) Hw r Hr) as (i & d & Hi & E & U).
    rewrite (sel_rows_selects ds sel r i d E Hi). apply (Hsel r i d); assumption.
  Qed.
  Lemma ranked_ids r : In r R -> datums r = ids r.
  Proof.
    intros Hr. destruct (ranked_entry eps unit ds L w e Heps Hin Hg Hsmall Hdis r Hr) as (i & p & v & s & r0 & Hr0 & E & _).
    destruct (row_datum eps ds L w (de_detailed e) Hw r0 Hr0) as (i' & d & Hi & E1 & U).
    unfold strip, set_prev in E. injection E as E3 E4. intros.
    rewrite (sel_rows_selects ds sel r i' d) by congruence. apply (Hsel r i' d); congruence.
  Qed.
  Lemma F_ok : ranked_ok (filter ids R).
  Proof. apply ranked_ok_filter; [apply sel_rows_by|exact Rok]. Qed.

  Lemma f_counts t s l : (0 < t)%Z -> rep_counts eps e datums t s l = det_counts_at eps t s (filter ids R) l.
  Proof.
    intros Ht. unfold rep_counts. rewrite (eval_counts_ext datums ids _ ranked_ids). apply eval_counts_concat. apply (tp_keys_NoDup eps _ F_ok t s Ht).
  Qed.
  Lemma f_curve t n l b : eval_curve eps t n datums (de_ranked e) l b = upd_curve n (fst (running eps t run0 (filter ids R))) curve0 l b.
  Proof.
    rewrite (eval_curve_ext datums ids _ ranked_ids). apply eval_curve_concat. apply sorted_by_score, (ro_sorted _ F_ok).
  Qed.

  Variables (v : String.string) (vi : nat).
  Hypothesis Hv : index_of v L = Some vi.
  Local Notation RL := (filter (fun r => (d_pl r =? Z.of_nat vi)%Z) (filter ids R)).

  Lemma f_gts : rep_gts e datums (Z.of_nat vi) = gts_where (fun _ => true) (fun d g => v_gt u d g) ds v.
  Proof.
    unfold rep_gts. rewrite (gt_count_ext datums ids _ detailed_ids).
    rewrite (det_gt_count_dcount ids (de_detailed e) _ (g_aligned _ _ _ _ _ _ Hg) (w_gts_one eps unit ds L w e Hg)).
    rewrite gt_keys_length.
    2:{ intros a b Ha Hb. apply filter_In in Ha, Hb. apply (w_gts_one eps unit ds L w e Hg); tauto. }
    apply (count_gt_keys ds v (Z.of_nat vi) (fun _ => true)); [apply dkeys_NoDup|]. intros k. rewrite dkeys_In. split.
    - intros (r & Hr & Hb & <-). apply filter_In in Hr. destruct Hr as [Hr Hid]. apply andb_true_iff in Hb. destruct Hb as [Hb1 Hb2]. apply Z.eqb_eq in Hb2.
      destruct (row_gt eps ds L w (de_detailed e) Hw r Hr) as (i & d & g & Hi & Cg & Vg); [lia|].
      assert (Cg' := Cg). destruct Cg' as (d' & ga & v' & gi & Hi' & Hga & Hl & Hx & _ & E1 & _ & E2 & _ & E3). assert (d' = d) by congruence. subst d'.
      assert (v' = v). { apply (index_of_inj v' v L gi Hx). replace gi with vi by lia. exact Hv. } subst v'.
      exists i, d, g, ga. split; [exact Hi|]. split; [reflexivity|]. split; [exact Hga|].
      split; [unfold has_label; rewrite Hl; cbn; rewrite String.eqb_refl; reflexivity|]. split.
      + cbn. rewrite Vg, <- (sel_rows_selects ds sel r i d E1 Hi), Hid. reflexivity.
      + unfold gt_key. rewrite E1, E2, Hb2. reflexivity.
    - intros (i & d & g & ga & Hi & _ & Hga & Hl & Vg & ->). cbn in Vg. apply andb_true_iff in Vg. destruct Vg as [Vs Vg]. apply andb_true_iff in Vs. destruct Vs as [Vs _].
      destruct (w_gt_in _ _ _ _ _ Hw i d g Hi) as (r & Hr & Cg); [apply nth_error_Some; congruence|exact Vg|]. exists r.
      assert (Cg' := Cg). destruct Cg' as (d' & ga' & v' & gi & Hi' & Hga' & Hl' & Hx & _ & E1 & _ & E2 & _ & E3). assert (d' = d) by congruence. subst d'.
      assert (ga' = ga) by congruence. subst ga'. assert (v' = v).
      { unfold has_label in Hl. rewrite Hl' in Hl. cbn in Hl. destruct (String.eqb v v') eqn:X; [apply String.eqb_eq in X; congruence|discriminate]. } subst v'.
      assert (gi = vi) by congruence. subst gi.
      split; [apply filter_In; split; [exact Hr|]; rewrite (sel_rows_selects ds sel r i d E1 Hi); exact Vs|].
      assert (N := cgt_pos ds L i g r Cg). split; [rewrite E3, Z.eqb_refl; apply andb_true_iff; split; [lia|reflexivity]|]. unfold gt_key. congruence.
  Qed.

  Lemma rl_facts r : In r RL -> In r R /\ d_pl r = Z.of_nat vi /\ entry eps ds u v (abs ds r) /\
    exists r0, In r0 T /\ strip r0 = strip r /\ cpd (x_i (abs ds r)) (x_p (abs ds r)) v (x_sc (abs ds r)) r0.
  Proof.
    intros Hr. apply filter_In in Hr. destruct Hr as [Hr Hpl]. apply Z.eqb_eq in Hpl. apply filter_In in Hr. destruct Hr as [Hr Hid].
    split; [exact Hr|]. split; [exact Hpl|].
    destruct (ranked_entry eps unit ds L w e Heps Hin Hg Hsmall Hdis r Hr) as (i & p & v' & s & r0 & Hr0 & E & Cp & En).
    assert (E' := E). apply strip_fields in E'. destruct E' as (Ed & _ & _ & _ & Epl & _).
    assert (v' = v).
    { destruct Cp as (? & ? & ? & pi & _ & _ & _ & _ & Hx & _ & _ & _ & _ & _ & F & _). apply (index_of_inj v' v L pi Hx). replace pi with vi by lia. exact Hv. }
    subst v'. destruct (cpd_abs ds L i p v s r0 Cp) as (A1 & A2 & A3). rewrite (abs_strip ds r r0 E) in A1, A2, A3.
    split.
    - apply entry_selected. split; [exact En|]. assert (Cp' := Cp). destruct Cp' as (d & pa & n & pi & Hi & _). exists d. rewrite A1. split; [exact Hi|].
      assert (D := cpd_datum ds L i p v s r0 Cp). rewrite <- (sel_rows_selects ds sel r i d); [exact Hid|congruence|exact Hi].
    - exists r0. rewrite A1, A2, A3. auto.
  Qed.

  Lemma rl_canonical : canonical eps ds u v (map (abs ds) RL).
  Proof.
    constructor.
    - intros x. rewrite in_map_iff. split.
      + intros (r & <- & Hr). apply (rl_facts r Hr).
      + intros Hx. apply entry_selected in Hx. destruct Hx as (Hx & d & Hi & Hs).
        destruct (entry_ranked eps unit ds L w e Heps Hin Hg Hsmall Hdis x v vi Hx Hv) as (r & Hr & Hpl & Ha). exists r. split; [exact Ha|].
        apply filter_In. split; [|lia]. apply filter_In. split; [exact Hr|].
        destruct (ranked_entry eps unit ds L w e Heps Hin Hg Hsmall Hdis r Hr) as (i & p & v' & s & r0 & Hr0 & E & Cp & En).
        destruct (cpd_abs ds L i p v' s r0 Cp) as (A1 & _). rewrite (abs_strip ds r r0 E), Ha in A1. apply strip_fields in E. destruct E as (Ed & _).
        rewrite (sel_rows_selects ds sel r i d); [exact Hs|rewrite <- Ed; apply (cpd_datum ds L i p v' s r0 Cp)|congruence].
    - assert (HN : NoDup (map pd_key RL)) by (apply NoDup_map_filter, (ro_keys _ F_ok)).
      assert (HI : forall a b, In a RL -> In b RL -> abs ds a = abs ds b -> pd_key a = pd_key b).
      { intros a b Ha Hb E. destruct (rl_facts a Ha) as (_ & _ & _ & a0 & _ & Ea & Ca). destruct (rl_facts b Hb) as (_ & _ & _ & b0 & _ & Eb & Cb).
        rewrite E in Ca. assert (K := cpd_key ds L _ _ v _ a0 v _ b0 Ca Cb eq_refl).
        apply strip_fields in Ea, Eb. unfold pd_key in *. destruct Ea as (<- & _ & _ & <- & <- & _). destruct Eb as (<- & _ & _ & <- & <- & _). exact K. }
      revert HN HI. generalize RL. induction l as [|a l IH]; intros HN HI; cbn; [constructor|]. cbn in HN. inversion HN as [|? ? Hn HN']; subst. constructor.
      + intros Hc. apply in_map_iff in Hc. destruct Hc as (b & E & Hb). apply Hn. rewrite <- (HI b a (or_intror Hb) (or_introl eq_refl) E). apply in_map. exact Hb.
      + apply IH; [exact HN'|]. intros x y Hx Hy. apply HI; right; assumption.
    - assert (HS : StronglySorted rank_lt RL).
      { assert (S0 := ranked_sorted_full unit (de_detailed e) R (g_order _ _ _ _ _ _ Hg) (g_ranked _ _ _ _ _ _ Hg)).
        assert (FS : forall P l, StronglySorted rank_lt l -> StronglySorted rank_lt (filter P l)).
        { intros P l H. induction H as [|a l H IH Hf]; cbn; [constructor|]. destruct (P a); [constructor; [exact IH|]|exact IH].
          rewrite Forall_forall in *. intros x Hx. apply filter_In in Hx. apply Hf; tauto. }
        apply FS, FS, S0. }
      apply StronglySorted_map_inv.
      assert (HA : forall a b, In a RL -> In b RL -> rank_lt a b -> a_le (abs ds a) (abs ds b)).
      { intros a b Ha Hb [H1 H2]. destruct (rl_facts a Ha) as (_ & _ & _ & a0 & _ & Ea & Ca). destruct (rl_facts b Hb) as (_ & _ & _ & b0 & _ & Eb & Cb).
        apply strip_fields in Ea, Eb. destruct Ea as (Ea1 & _ & _ & Ea2 & Ea3 & _). destruct Eb as (Eb1 & _ & _ & Eb2 & Eb3 & _).
        apply det_leb_spec in H1. unfold a_le. change (x_sc (abs ds a)) with (d_score a). change (x_sc (abs ds b)) with (d_score b).
        change (x_z (abs ds a)) with (d_iou a). change (x_z (abs ds b)) with (d_iou b).
        destruct H1 as [H1|[H1 H1']]; [left; lia|right]. split; [lia|]. destruct (Z.eq_dec (d_iou a) (d_iou b)) as [Ez|Ez]; [right|left; lia]. split; [lia|].
        assert (Hk : zzz_leb (pd_key a) (pd_key b) = true) by (apply H2, det_leb_spec; right; lia).
        destruct Ca as (da & paa & na & pia & Ia & Pa & _ & _ & _ & _ & Da & _ & Ka & _ & La & _). destruct Cb as (db & pab & nb & pib & Ib & Pb & _ & _ & _ & _ & Db & _ & Kb & _ & Lb & _).
        unfold zzz_leb, pd_key in Hk. cbn [fst snd lex_leb] in Hk. rewrite <- Ea1, <- Ea2, <- Eb1, <- Eb2, Da, Ka, Db, Kb in Hk. unfold pd_id in Hk.
        rewrite !orb_true_iff, !andb_true_iff, !orb_true_iff, !Z.ltb_lt, !Z.eqb_eq in Hk.
        destruct Hk as [Hk|[Ei Hk]]; [left; lia|right]. apply Nat2Z.inj in Ei. split; [exact Ei|]. rewrite Ei in Hk.
        destruct Hk as [Hk|Hk]; [lia|]. apply andb_true_iff in Hk. destruct Hk as [Hk _]. apply Z.eqb_eq in Hk. lia. }
      revert HS HA. generalize RL. intros l HS. induction HS as [|a l HS IH Hf]; intros HA; constructor.
      + apply IH. intros x y Hx Hy. apply HA; right; assumption.
      + rewrite Forall_forall in *. intros b Hb. apply HA; [left; reflexivity|right; exact Hb|apply Hf; exact Hb].
  Qed.

  (* which rows are hits *)
  Lemma rl_c_gt r g : In r RL -> x_c (abs ds r) = Some g -> (0 <= d_gt r)%Z /\ gt_key r = (Z.of_nat (x_i (abs ds r)), gt_id ds (x_i (abs ds r)) g, Z.of_nat vi) /\
    d_gl r = d_pl r.
  Proof.
    intros Hr Ec. destruct (rl_facts r Hr) as (HrR & Hpl & En & r0 & Hr0 & E & Cp).
    assert (Em : d_gl r = d_pl r). { unfold abs in Ec. cbn in Ec. destruct (Z.eqb_spec (d_gl r) (d_pl r)); [assumption|discriminate]. }
    assert (E' := E). apply strip_fields in E'. destruct E' as (Ed & Eg & Egl & Ep & Epl & _).
    destruct (w_rows _ _ _ _ _ Hw r0 Hr0) as [(i & d & g' & p & v' & s & Hi & Cg & Cp' & _)|[(i & d & g' & _ & _ & (B & _) & _)|(i & d & p & v' & s & _ & Cp' & (B & B') & _)]].
    - destruct (cpd_same ds L _ _ i p v v' _ s r0 r0 Cp Cp' eq_refl) as [Ei _].
      assert (A4 := cgt_abs ds L i g' r0 Cg). rewrite (abs_strip ds r r0 E), Ec in A4. destruct (d_gl r0 =? d_pl r0)%Z; [|discriminate]. injection A4 as <-.
      split; [rewrite <- Eg; apply (cgt_pos ds L i g r0 Cg)|]. split; [|exact Em].
      destruct Cg as (? & ? & ? & ? & _ & _ & _ & _ & _ & F1 & _ & F2 & _). unfold gt_key. rewrite Em, Hpl, <- Ed, <- Eg, F1, F2, Ei. reflexivity.
    - assert (N := cpd_pos ds L _ _ v _ r0 Cp). lia.
    - exfalso. destruct Cp as (? & ? & ? & ? & _ & _ & _ & _ & _ & _ & _ & _ & _ & _ & F & _). lia.
  Qed.
  Lemma rl_c_none r : In r RL -> x_c (abs ds r) = None -> d_gl r <> d_pl r.
  Proof. intros Hr Ec. unfold abs in Ec. cbn in Ec. destruct (Z.eqb_spec (d_gl r) (d_pl r)); [discriminate|assumption]. Qed.
  Lemma entry_gt_len x g : entry eps ds u v x -> x_c x = Some g -> exists d, nth_error ds (x_i x) = Some d /\ exists ga, nth_error (t_gts d) g = Some ga.
  Proof. intros (d & pa & n & Hi & _ & _ & _ & _ & Hc) Ec. rewrite Ec in Hc. destruct Hc as ((ga & Hga & _) & _). eauto. Qed.

  Lemma rl_hit t l1 r l2 : (0 < t)%Z -> RL = l1 ++ r :: l2 -> tp_outer eps t r = (eps <? x_sc (abs ds r))%Z && ahit t (map (abs ds) l1) (abs ds r).
  Proof.
    intros Ht E. unfold tp_outer. rewrite <- andb_assoc. change (x_sc (abs ds r)) with (d_score r). f_equal.
    assert (HrL : In r RL) by (rewrite E; apply in_app_iff; right; left; reflexivity).
    assert (Hsub : forall y, In y l1 -> In y RL) by (intros y Hy; rewrite E; apply in_app_iff; left; exact Hy).
    assert (HrF : In r (filter ids R)) by (apply filter_In in HrL; tauto).
    assert (HrR : In r R) by (apply filter_In in HrF; tauto).
    destruct (filter_split _ _ _ _ _ E) as (m1 & m2 & EF & E1 & _ & Epl). apply Z.eqb_eq in Epl.
    assert (HN : NoDup (filter ids R)) by (apply (R_NoDup _ F_ok)).
    assert (Hh := hit_iff (filter ids R) F_ok t r Ht HrF).
    assert (Hbm : best_match (filter ids R) (gt_key r) t = Some r <-> (d_gl r = d_pl r /\ (t <= d_iou r)%Z /\ forall y, In y m1 -> gt_mask (gt_key r) y = true -> (d_iou y < t)%Z)).
    { rewrite best_match_eq. split.
      - intros H. apply find_split in H. destruct H as (k1 & k2 & EK & Hm & Hno).
        assert (k1 = m1).
        { clear - EF EK HN. rewrite EF in EK, HN. clear EF. revert k1 EK HN. induction m1 as [|a m1 IH]; intros [|b k1] EK HN; cbn in *.
          - reflexivity.
          - inversion EK; subst. inversion HN as [|? ? X _]; subst. exfalso. apply X. apply in_app_iff. right. left. reflexivity.
          - inversion EK; subst. inversion HN as [|? ? X _]; subst. exfalso. apply X. apply in_app_iff. right. left. reflexivity.
          - inversion EK; subst. inversion HN; subst. f_equal. apply IH; auto. }
        subst k1. apply andb_true_iff in Hm. destruct Hm as [Hm1 Hm2]. apply gt_mask_spec in Hm1. split; [tauto|]. split; [lia|].
        intros y Hy Hyk. specialize (Hno y Hy). cbn in Hno. rewrite Hyk in Hno. cbn in Hno. lia.
      - intros (A & B & C). rewrite EF, find_app. rewrite find_none_iff.
        + cbn [find]. replace (gt_mask (gt_key r) r) with true by (symmetry; apply gt_mask_spec; auto).
          replace (t <=? d_iou r)%Z with true by lia. reflexivity.
        + intros y Hy. destruct (gt_mask (gt_key r) y) eqn:Ey; [|reflexivity]. specialize (C y Hy Ey). cbn. lia. }
    rewrite Hbm in Hh. unfold ahit. destruct (x_c (abs ds r)) as [g|] eqn:Ec.
    - destruct (rl_c_gt r g HrL Ec) as (G0 & Gk & Gl). change (x_z (abs ds r)) with (d_iou r).
      apply eq_true_iff_eq. rewrite Hh, andb_true_iff, Z.leb_le, negb_true_iff. split.
      + intros (_ & _ & H2 & H3). split; [exact H2|]. apply not_true_is_false. rewrite existsb_exists. intros (y & Hy & Hb).
        apply in_map_iff in Hy. destruct Hy as (r' & <- & Hr'). destruct (x_c (abs ds r')) as [g'|] eqn:Ec'; [|discriminate].
        rewrite !andb_true_iff in Hb. destruct Hb as ((Hb1 & Hb2) & Hb3). apply Nat.eqb_eq in Hb1, Hb2. subst g'.
        destruct (rl_c_gt r' g (Hsub r' Hr') Ec') as (G0' & Gk' & Gl'). change (x_z (abs ds r')) with (d_iou r') in Hb3.
        assert (X : (d_iou r' < t)%Z); [|lia]. apply H3; [rewrite <- E1 in Hr'; apply filter_In in Hr'; tauto|]. apply gt_mask_spec. split; [rewrite Gk, Gk', Hb1; reflexivity|exact Gl'].
      + intros (H2 & H3). split; [exact G0|]. split; [exact Gl|]. split; [exact H2|]. intros y Hy Hm. apply gt_mask_spec in Hm. destruct Hm as [Hm1 Hm2].
        destruct (Z.lt_ge_cases (d_iou y) t) as [X|X]; [exact X|]. exfalso. apply not_true_iff_false in H3. apply H3. apply existsb_exists.
        assert (Hyl : In y l1). { rewrite <- E1. apply filter_In. split; [exact Hy|]. apply Z.eqb_eq. rewrite <- Hm2. rewrite Gk in Hm1. unfold gt_key in Hm1. congruence. }
        exists (abs ds y). split; [apply in_map; exact Hyl|].
        assert (Hg' : exists g', x_c (abs ds y) = Some g') by (unfold abs; cbn; rewrite (proj2 (Z.eqb_eq _ _) Hm2); eauto).
        destruct Hg' as (g' & Eg'). rewrite Eg'. destruct (rl_c_gt y g' (Hsub y Hyl) Eg') as (_ & Gk' & _). rewrite Gk' in Hm1. rewrite Gk in Hm1.
        injection Hm1 as M1 M2. apply Nat2Z.inj in M1.
        destruct (rl_facts r HrL) as (_ & _ & En & _). destruct (rl_facts y (Hsub y Hyl)) as (_ & _ & En' & _).
        destruct (entry_gt_len _ g En Ec) as (d & Hd & ga & Hga). destruct (entry_gt_len _ g' En' Eg') as (d' & Hd' & ga' & Hga').
        destruct (gt_id_inj ds _ _ d' d g' g ga' ga Hd' Hd Hga' Hga M2) as [I1 I2].
        rewrite !andb_true_iff. change (x_z (abs ds y)) with (d_iou y). split; [split|lia]; apply Nat.eqb_eq; congruence.
    - apply not_true_is_false. rewrite Hh. intros (_ & H & _). apply (rl_c_none r HrL Ec H).
  Qed.

  Lemma rl_ahits t : (0 < t)%Z -> map (tp_outer eps t) RL = ahits eps t [] (map (abs ds) RL).
  Proof. intros Ht. apply ahits_map. intros l1 r l2 E. cbn [app]. apply (rl_hit t l1 r l2 Ht E). Qed.

  (* the metrics of the label *)
  Lemma f_tp t s : (0 < t)%Z -> rep_tp eps e datums t s (Z.of_nat vi)
    = countb (fun xh => snd xh && (s <=? x_sc (fst xh))%Z) (combine (map (abs ds) RL) (ahits eps t [] (map (abs ds) RL))).
  Proof.
    intros Ht. unfold rep_tp. rewrite f_counts by exact Ht. rewrite (counts_simple eps t s _ _ (tp_keys_NoDup eps _ F_ok t s Ht)). cbn [dc_tp].
    rewrite <- (rl_ahits t Ht). generalize (filter ids R). clear. induction l as [|r l IH]; [reflexivity|]. cbn [countb filter]. 
    unfold countb in *. cbn [filter]. destruct (d_pl r =? Z.of_nat vi)%Z; cbn [andb map combine filter fst snd]; rewrite ?andb_true_r, ?andb_false_r; [|exact IH].
    unfold tp_inner. change (x_sc (abs ds r)) with (d_score r). destruct (tp_outer eps t r && (s <=? d_score r)%Z); [exact (f_equal S IH)|exact IH].
  Qed.
  Lemma f_total t s : (0 < t)%Z -> rep_tp eps e datums t s (Z.of_nat vi) + rep_fp eps e datums t s (Z.of_nat vi)
    = countb (fun x => (eps <? x_sc x)%Z && (s <=? x_sc x)%Z) (map (abs ds) RL).
  Proof.
    intros Ht. unfold rep_tp, rep_fp. rewrite f_counts by exact Ht. rewrite tp_plus_fp. unfold score_ok.
    generalize (filter ids R). clear. induction l as [|r l IH]; [reflexivity|]. unfold countb in *. cbn [filter].
    destruct (d_pl r =? Z.of_nat vi)%Z; cbn [map filter]; rewrite ?andb_true_r, ?andb_false_r; [|exact IH].
    change (x_sc (abs ds r)) with (d_score r). destruct ((eps <? d_score r)%Z && (s <=? d_score r)%Z); [exact (f_equal S IH)|exact IH].
  Qed.
  Lemma f_rep_curve t b : (0 < t)%Z -> rep_curve eps e datums t (Z.of_nat vi) b
    = fold_left (fun m p => Qmax m (qnat (snd p) / qnat (fst p))) (filter (fun p => Nat.eqb (100 * snd p / rep_gts e datums (Z.of_nat vi)) b)
        (pr_list 0 0 (ahits eps t [] (map (abs ds) RL)))) 0%Q.
  Proof. intros Ht. unfold rep_curve. rewrite f_curve, curve_of_hits, (rl_ahits t Ht). reflexivity. Qed.
End Lists.
