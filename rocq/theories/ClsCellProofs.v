(* The confusion matrix with examples of a classification evaluator. *)
From Verif Require Import Prelude PageSpec CacheModel CacheSpec PaginateProofs PageLemmas CacheProofs Counting ClsModel ClsSpec ClsLabelProofs ClsProofs
  ClsConfProofs ClsLemmas ClsMore ClsExampleProofs RocModel FlowModel FlowProofs FlowMore ClsFilterModel ClsFilterSpec ClsFilterProofs ClsFilterCounts
  DetFilterProofs DetLocalProofs ClsReportProofs ClsPageModel ClsPageSpec ClsPageProofs ClsCellModel ClsCellSpec.
From Coq Require Import String.
Local Open Scope nat_scope.
Local Open Scope list_scope.

(* ---------------------------------------------------------------- dictionaries *)
Definition shaped (names : list string) (f : string -> string -> list (option string * option Z)) (h : string -> list (option string)) : cmx :=
  MkCmx (map (fun g => (g, map (fun p => (p, counted (f g p))) names)) names) (map (fun g => (g, counted (h g))) names).

Lemma shaped_ext names f f' h h' : (forall g p, In g names -> In p names -> f g p = f' g p) -> (forall g, In g names -> h g = h' g) ->
  shaped names f h = shaped names f' h'.
Proof.
  intros Hf Hh. unfold shaped. f_equal.
  - apply map_ext_in. intros g Hg. f_equal. apply map_ext_in. intros p Hp. rewrite (Hf g p Hg Hp). reflexivity.
  - apply map_ext_in. intros g Hg. rewrite (Hh g Hg). reflexivity.
Qed.

Lemma upd_map {V} (v : string -> V) (F : V -> option V) names k v' : NoDup names -> In k names -> F (v k) = Some v' ->
  upd (map (fun n => (n, v n)) names) k F = Some (map (fun n => (n, if String.eqb n k then v' else v n)) names).
Proof.
  intros Hn Hk HF. induction Hn as [|a t Ha Hn IH]; [destruct Hk|]. cbn [map upd]. destruct (String.eqb_spec k a) as [->|N].
  - rewrite HF, String.eqb_refl. f_equal. f_equal. apply map_ext_in. intros n Hin. destruct (String.eqb_spec n a); [congruence|reflexivity].
  - destruct Hk as [E|Hk]; [congruence|]. rewrite (IH Hk). destruct (String.eqb_spec a k); [congruence|]. reflexivity.
Qed.

Section Shape.
  Variable names : list string.
  Hypothesis Hn : NoDup names.

  Lemma add_match_shape f h g p x : In g names -> In p names ->
    add_match (shaped names f h) g p x = Some (shaped names (fun a b => if String.eqb a g && String.eqb b p then f a b ++ [x] else f a b) h).
  Proof.
    intros Hg Hp. unfold add_match, shaped. cbn [cx_cells cx_unmatched].
    rewrite (upd_map (fun g => map (fun p => (p, counted (f g p))) names) _ names g
      (map (fun n => (n, if String.eqb n p then (S (List.length (f g p)), f g p ++ [x]) else counted (f g n))) names) Hn Hg).
    - f_equal. f_equal. apply map_ext_in. intros a _. destruct (String.eqb_spec a g) as [->|N]; [|reflexivity]. f_equal.
      apply map_ext_in. intros b _. cbn [andb]. destruct (String.eqb_spec b p) as [->|N]; [|reflexivity].
      unfold counted. rewrite app_length. cbn. f_equal. f_equal. lia.
    - apply (upd_map (fun p => counted (f g p)) (bump x) names p); auto.
  Qed.
  Lemma add_unmatched_shape f h g x : In g names ->
    add_unmatched (shaped names f h) g x = Some (shaped names f (fun a => if String.eqb a g then h a ++ [x] else h a)).
  Proof.
    intros Hg. unfold add_unmatched, shaped. cbn [cx_cells cx_unmatched].
    rewrite (upd_map (fun g => counted (h g)) (bump x) names g (S (List.length (h g)), h g ++ [x]) Hn Hg eq_refl).
    f_equal. f_equal. apply map_ext_in. intros a _. destruct (String.eqb_spec a g) as [->|N]; [|reflexivity].
    unfold counted. rewrite app_length. cbn. f_equal. f_equal. lia.
  Qed.

  Variable labels : dict.
  Variables (m : crow -> bool) (rows : list crow).
  Local Notation lab := (dict_get labels).
  Local Notation ms := (unique_matches m rows).
  Local Notation us := (unique_unmatched m rows).
  Hypothesis Hms : forall k, In k ms -> exists g p, lab (snd (fst k)) = Some g /\ lab (snd k) = Some p /\ In g names /\ In p names.
  Hypothesis Hus : forall k, In k us -> exists g, lab (snd k) = Some g /\ In g names.

  Definition for_cell (g p : string) (l : list (Z * Z * Z)) : list (option string * option Z) :=
    map (fun k => (uid_of rows (fst (fst k)), match_score m rows k))
      (filter (fun k => name_eqb (lab (snd (fst k))) (Some g) && name_eqb (lab (snd k)) (Some p)) l).
  Definition for_unmatched (g : string) (l : list (Z * Z)) : list (option string) :=
    map (fun k => uid_of rows (fst k)) (filter (fun k => name_eqb (lab (snd k)) (Some g)) l).

  Lemma firstn_snoc {A} (l : list A) : forall n, firstn (S n) l = firstn n l ++ match nth_error l n with Some x => [x] | None => [] end.
  Proof. induction l as [|a t IH]; intros [|n]; try reflexivity. cbn [firstn nth_error app]. f_equal. apply IH. Qed.

  Lemma cmx_loop f h n :
    fold_left (fun o idx => obind o (fun M => cmx_step labels m rows M idx)) (seq 0 n) (Some (shaped names f h))
    = Some (shaped names (fun g p => f g p ++ for_cell g p (firstn n ms)) (fun g => h g ++ for_unmatched g (firstn n us))).
  Proof.
    induction n as [|n IH].
    - cbn. f_equal. apply shaped_ext; intros; cbn; rewrite app_nil_r; reflexivity.
    - rewrite seq_S, fold_left_app, IH. cbn [plus fold_left obind]. unfold cmx_step.
      assert (E1 : match nth_error ms n with
        | None => Some (shaped names (fun g p => f g p ++ for_cell g p (firstn n ms)) (fun g => h g ++ for_unmatched g (firstn n us)))
        | Some k => match lab (snd (fst k)), lab (snd k) with
                    | Some g, Some p => add_match (shaped names (fun g p => f g p ++ for_cell g p (firstn n ms)) (fun g => h g ++ for_unmatched g (firstn n us)))
                        g p (uid_of rows (fst (fst k)), match_score m rows k)
                    | _, _ => None end end
        = Some (shaped names (fun g p => f g p ++ for_cell g p (firstn (S n) ms)) (fun g => h g ++ for_unmatched g (firstn n us)))).
      { rewrite firstn_snoc. destruct (nth_error ms n) as [k|] eqn:Ek.
        - destruct (Hms k (nth_error_In _ _ Ek)) as (g & p & Eg & Ep & Hg & Hp). rewrite Eg, Ep, add_match_shape by assumption.
          f_equal. apply shaped_ext; [|reflexivity]. intros a b _ _. unfold for_cell. rewrite filter_app, map_app. cbn [filter].
          rewrite Eg, Ep. cbn [name_eqb]. rewrite (String.eqb_sym g a), (String.eqb_sym p b).
          destruct (String.eqb a g && String.eqb b p); cbn [map]; rewrite ?app_nil_r, ?app_assoc; reflexivity.
        - f_equal. apply shaped_ext; [|reflexivity]. intros a b _ _. rewrite app_nil_r. reflexivity. }
      rewrite E1. clear E1. rewrite (firstn_snoc us). destruct (nth_error us n) as [k|] eqn:Ek.
      + destruct (Hus k (nth_error_In _ _ Ek)) as (g & Eg & Hg). rewrite Eg, add_unmatched_shape by assumption.
        f_equal. apply shaped_ext; [reflexivity|]. intros a _. unfold for_unmatched. rewrite filter_app, map_app. cbn [filter].
        rewrite Eg. cbn [name_eqb]. rewrite (String.eqb_sym g a). destruct (String.eqb a g); cbn [map]; rewrite ?app_nil_r, ?app_assoc; reflexivity.
      + f_equal. apply shaped_ext; [reflexivity|]. intros a _. rewrite app_nil_r. reflexivity.
  Qed.
  Lemma cmx_table_shape f h : cmx_table labels m (shaped names f h) rows
    = Some (shaped names (fun g p => f g p ++ for_cell g p ms) (fun g => h g ++ for_unmatched g us)).
  Proof. unfold cmx_table. rewrite cmx_loop, !firstn_all2 by lia. reflexivity. Qed.
End Shape.

Lemma in_order_aligned {A} (key : A -> Z) ts t t' a b : in_order key ts -> In t ts -> In t' ts -> In a t -> In b t' -> key a = key b -> t = t' \/ False.
Proof.
  intros H. revert t t'. induction H as [|x ts Hs IH Hf]; intros t t' Ht Ht' Ha Hb E; [destruct Ht|]. rewrite Forall_forall in Hf.
  destruct Ht as [<-|Ht], Ht' as [<-|Ht'].
  - left. reflexivity.
  - specialize (Hf t' Ht' a b Ha Hb). lia.
  - specialize (Hf t Ht b a Hb Ha). lia.
  - apply (IH t t'); assumption.
Qed.

(* lists taken from the tables in turn are in input order *)
Section Ordered.
  Variable cs : list classification.
  Variable ts : list (list crow).
  Hypothesis Hord : in_order r_datum ts.
  Context {B : Type}.
  Variables (D : list crow -> list Z) (val : list crow -> Z -> B) (P : classification -> bool) (v : classification -> B).
  Hypothesis Hsort : forall t, In t ts -> StronglySorted Z.lt (D t).
  Hypothesis Hof : forall t z, In t ts -> In z (D t) -> exists r, In r t /\ r_datum r = z.
  Hypothesis Hmem : forall z, (exists t, In t ts /\ In z (D t)) <-> exists d c, z = Z.of_nat d /\ nth_error cs d = Some c /\ P c = true.
  Hypothesis Hval : forall t d c, In t ts -> In (Z.of_nat d) (D t) -> nth_error cs d = Some c -> val t (Z.of_nat d) = v c.

  Lemma ordered_ids : List.concat (map D ts)
    = map Z.of_nat (filter (fun d => match nth_error cs d with Some c => P c | None => false end) (seq 0 (List.length cs))).
  Proof.
    apply sorted_lt_eq.
    - clear Hmem Hval. revert Hsort Hof. induction Hord as [|t ts' Hs IH Hf]; intros Hso Ho; [constructor|]. cbn. apply StronglySorted_app.
      split; [apply Hso; left; reflexivity|]. split; [apply IH; intros; [assumption|apply Hso; right; assumption|apply Ho; [right|]; assumption]|].
      intros a b Ha Hb. apply in_concat in Hb. destruct Hb as (x & Hx & Hb). apply in_map_iff in Hx. destruct Hx as (t' & <- & Ht').
      destruct (Ho t a (or_introl eq_refl) Ha) as (ra & Hra & <-). destruct (Ho t' b (or_intror Ht') Hb) as (rb & Hrb & <-).
      rewrite Forall_forall in Hf. apply (Hf t' Ht'); auto.
    - apply sorted_seq.
    - intros z. rewrite in_map_iff. split.
      + intros H. apply in_concat in H. destruct H as (x & Hx & H). apply in_map_iff in Hx. destruct Hx as (t & <- & Ht).
        destruct (proj1 (Hmem z)) as (d & c & -> & Hc & HP); [eauto|]. exists d. split; [reflexivity|]. apply filter_In.
        rewrite Hc. split; [|exact HP]. apply in_seq. assert (d < List.length cs) by (apply nth_error_Some; congruence). lia.
      + intros (d & <- & Hd). apply filter_In in Hd. destruct Hd as [_ Hd]. destruct (nth_error cs d) as [c|] eqn:Hc; [|discriminate].
        destruct (proj2 (Hmem (Z.of_nat d))) as (t & Ht & Hz); [eauto|]. apply in_concat. exists (D t). split; [apply in_map; exact Ht|exact Hz].
  Qed.

  Lemma ordered_cells : List.concat (map (fun t => map (val t) (D t)) ts) = map v (filter P cs).
  Proof.
    set (F := fun z => option_map v (nth_error cs (Z.to_nat z))).
    assert (E : map Some (List.concat (map (fun t => map (val t) (D t)) ts)) = map F (List.concat (map D ts))).
    { assert (H : forall t z, In t ts -> In z (D t) -> Some (val t z) = F z).
      { intros t z Ht Hz. destruct (proj1 (Hmem z)) as (d & c & -> & Hc & _); [eauto|]. unfold F. rewrite Nat2Z.id, Hc. cbn. f_equal. apply Hval; auto. }
      revert H. clear. generalize ts. intros tl. induction tl as [|t tl IH]; intros H; [reflexivity|]. cbn [map List.concat]. rewrite !map_app. f_equal.
      - rewrite map_map. apply map_ext_in. intros z Hz. apply H; [left; reflexivity|exact Hz].
      - apply IH. intros t' z Ht Hz. apply H; [right; exact Ht|exact Hz]. }
    rewrite ordered_ids, map_map in E. unfold F in E.
    rewrite (map_ext _ (fun d => option_map v (nth_error cs d))) in E by (intros; rewrite Nat2Z.id; reflexivity).
    rewrite <- (map_map (nth_error cs) (option_map v)), seq_filter, map_map in E. cbn [option_map] in E.
    rewrite <- (map_map v Some) in E. revert E. clear.
    generalize (List.concat (map (fun t => map (val t) (D t)) ts)), (map v (filter P cs)). clear.
    induction l as [|a l IH]; intros [|b l'] E; cbn in E; try discriminate; [reflexivity|]. injection E as -> E. f_equal. apply IH. exact E.
  Qed.
End Ordered.

Section Matrix.
  Variable cs : list classification.
  Variables (w : cview) (e : ceval) (datums : crow -> bool) (sel : cview).
  Hypothesis He : cls_evaluator cs w e.
  Hypothesis Hdist : Forall distinct_candidates cs.
  Hypothesis Hsel : expresses cs datums sel.
  Local Notation L := (labels_of cs).
  Local Notation u := (cselect w sel).
  Let Hacc : Forall accepted cs := evaluator_accepted cs w e He.
  Let G : cgood cs w e := evaluator_good cs w e Hdist He.
  Let ts := map (filter datums) (ce_tables e).
  Let Hrow : forall r, In r (List.concat ts) <-> exists d c, nth_error cs d = Some c /\ In r (canon_rows L d c) /\ u c (r_pd_label r) = true
    := whole_row cs w e datums sel He Hdist Hsel.
  Local Notation lab := (dict_get (ce_labels e)).
  Local Notation names := (map snd (ce_labels e)).

  Lemma ts_order : in_order r_datum ts.
  Proof. apply in_order_map; [|exact (evaluator_in_order cs w e He)]. intros t a H. apply filter_In in H. tauto. Qed.
  Lemma names_nodup : NoDup names.
  Proof. eapply Permutation_NoDup; [symmetry; apply (items_labels cs w e G)|apply labels_of_NoDup]. Qed.
  Lemma names_in l : In l L <-> In l names.
  Proof. split; apply Permutation_in; [symmetry|]; apply (items_labels cs w e G). Qed.
  Lemma name_of l : In l L -> lab (idx L l) = Some l.
  Proof. apply (lab_idx cs (ce_labels e) (cg_labels cs w e G) 0). Qed.

  Lemma t_row t r : In t ts -> In r t -> exists d c, nth_error cs d = Some c /\ In r (canon_rows L d c) /\ u c (r_pd_label r) = true.
  Proof. intros Ht Hr. apply Hrow. apply in_concat. eauto. Qed.
  Lemma row_facts d c r : nth_error cs d = Some c -> In r (canon_rows L d c) ->
    r_datum r = Z.of_nat d /\ r_gt r = idx L (c_groundtruth c) /\ r_pd r = idx L (r_pd_label r) /\ r_uid r = c_uid c /\
    In (c_groundtruth c) L /\ In (r_pd_label r) L.
  Proof.
    intros Hc Hr. pose proof (canon_In _ _ _ _ Hr) as (Eu & Ed & _ & Eg & Ep & Hl & _). pose proof (nth_error_In _ _ Hc) as Hin.
    split; [exact Ed|]. split; [exact Eg|]. split; [exact Ep|]. split; [exact Eu|]. split; [apply labels_of_gt; exact Hin|].
    apply (labels_of_pd cs c _ Hin Hl).
  Qed.
  (* all rows of a datum lie in one table *)
  Lemma t_whole t r d c x : In t ts -> In r t -> nth_error cs d = Some c -> r_datum r = Z.of_nat d ->
    In x (canon_rows L d c) -> u c (r_pd_label x) = true -> In x t.
  Proof.
    intros Ht Hr Hc Ed Hx Hu. assert (Hx' : In x (List.concat ts)) by (apply Hrow; eauto).
    apply in_concat in Hx'. destruct Hx' as (t' & Ht' & Hx'). destruct (row_facts d c x Hc Hx) as (Ex & _).
    destruct (in_order_aligned r_datum ts t t' r x ts_order Ht Ht' Hr Hx') as [->|[]]; [lia|exact Hx'].
  Qed.
  Lemma t_uid t r d c : In t ts -> In r t -> nth_error cs d = Some c -> r_datum r = Z.of_nat d -> uid_of t (Z.of_nat d) = Some (c_uid c).
  Proof.
    intros Ht Hr Hc Ed. unfold uid_of. destruct (find_first (fun x => (r_datum x =? Z.of_nat d)%Z) t) as (x & -> & Hx & E).
    { exists r. split; [exact Hr|lia]. }
    destruct (t_row t x Ht Hx) as (d' & c' & Hc' & Hcan & _). destruct (row_facts d' c' x Hc' Hcan) as (E1 & _ & _ & E2 & _).
    assert (d' = d) by lia. subst d'. cbn. congruence.
  Qed.

  Variables (hm : bool) (pass : Z -> bool) (m : crow -> bool).
  Hypothesis Hm : forall r, m r = pass (r_score r) && (if hm then r_winner r else true).

  Lemma match_in t k : In k (unique_matches m t) <-> exists r, In r t /\ m r = true /\ key3 r = k.
  Proof.
    unfold unique_matches. rewrite isort_In_iff, dkeys_In. split; intros (r & Hr & H & E); exists r; (split; [exact Hr|split; [|exact E]]).
    - rewrite tp_or_misclf in H. exact H.
    - rewrite tp_or_misclf. exact H.
  Qed.
  Lemma row_names d c r : nth_error cs d = Some c -> In r (canon_rows L d c) ->
    lab (r_gt r) = Some (c_groundtruth c) /\ lab (r_pd r) = Some (r_pd_label r).
  Proof.
    intros Hc Hr. destruct (row_facts d c r Hc Hr) as (_ & E1 & E2 & _ & H1 & H2). rewrite E1, E2. split; apply name_of; assumption.
  Qed.
  Lemma eqb_name a b : name_eqb (Some a) (Some b) = String.eqb a b.
  Proof. reflexivity. Qed.

  (* triples with the same labels are sorted by datum *)
  Lemma triples_sorted (g p : Z) l : NoDup l -> (forall k, In k l -> snd (fst k) = g /\ snd k = p) ->
    StronglySorted (leP zzz_leb) l -> StronglySorted Z.lt (map (fun k => fst (fst k)) l).
  Proof.
    intros Hn Hk Hs. induction Hs as [|a t Hs IH Hf]; [constructor|]. inversion Hn as [|? ? Ha Hn']; subst. cbn. constructor.
    - apply IH; auto. intros k H. apply Hk. right. exact H.
    - apply Forall_forall. intros x Hx. apply in_map_iff in Hx. destruct Hx as (b & <- & Hb). rewrite Forall_forall in Hf. specialize (Hf b Hb).
      destruct (Hk a (or_introl eq_refl)) as [Ea1 Ea2]. destruct (Hk b (or_intror Hb)) as [Eb1 Eb2].
      destruct a as [[a0 a1] a2], b as [[b0 b1] b2]. cbn in *. subst a1 a2 b1 b2. assert (a0 <> b0) by congruence.
      unfold leP, zzz_leb in Hf. cbn in Hf. destruct (Z.ltb_spec a0 b0); [lia|]. destruct (Z.eqb_spec a0 b0); [contradiction|discriminate].
  Qed.
  Lemma pairs_sorted_fst (g : Z) l : NoDup l -> (forall k, In k l -> snd k = g) ->
    StronglySorted (leP zz_leb) l -> StronglySorted Z.lt (map fst l).
  Proof.
    intros Hn Hk Hs. induction Hs as [|a t Hs IH Hf]; [constructor|]. inversion Hn as [|? ? Ha Hn']; subst. cbn. constructor.
    - apply IH; auto. intros k H. apply Hk. right. exact H.
    - apply Forall_forall. intros x Hx. apply in_map_iff in Hx. destruct Hx as (b & <- & Hb). rewrite Forall_forall in Hf. specialize (Hf b Hb).
      pose proof (Hk a (or_introl eq_refl)) as Ea. pose proof (Hk b (or_intror Hb)) as Eb.
      destruct a as [a0 a1], b as [b0 b1]. cbn in *. subst a1 b1. assert (a0 <> b0) by congruence.
      unfold leP, zz_leb in Hf. cbn in Hf. destruct (Z.ltb_spec a0 b0); [lia|]. destruct (Z.eqb_spec a0 b0); [contradiction|discriminate].
  Qed.
  Lemma sorted_filter {A} (R : A -> A -> Prop) (P : A -> bool) l : StronglySorted R l -> StronglySorted R (filter P l).
  Proof.
    induction 1 as [|a t Hs IH Hf]; [constructor|]. cbn. destruct (P a); [|exact IH]. constructor; [exact IH|].
    apply Forall_forall. intros x Hx. apply filter_In in Hx. rewrite Forall_forall in Hf. apply Hf. tauto.
  Qed.

  Lemma cell_list g p : In g L -> In p L ->
    List.concat (map (fun t => for_cell (ce_labels e) m t g p (unique_matches m t)) ts)
    = map (fun c => (Some (c_uid c), score_of p c)) (filter (fun c => String.eqb (c_groundtruth c) g && smem p (vpositives u hm pass c)) cs).
  Proof.
    intros Hg Hp.
    set (D := fun t => map (fun k => fst (fst k))
      (filter (fun k => name_eqb (lab (snd (fst k))) (Some g) && name_eqb (lab (snd k)) (Some p)) (unique_matches m t))).
    set (val := fun t z => (uid_of t z, match_score m t (z, idx L g, idx L p))).
    (* what a selected key is *)
    assert (K : forall t k, In t ts -> In k (filter (fun k => name_eqb (lab (snd (fst k))) (Some g) && name_eqb (lab (snd k)) (Some p)) (unique_matches m t)) ->
      exists r d c, In r t /\ m r = true /\ nth_error cs d = Some c /\ In r (canon_rows L d c) /\ u c (r_pd_label r) = true /\
        c_groundtruth c = g /\ r_pd_label r = p /\ k = (Z.of_nat d, idx L g, idx L p)).
    { intros t k Ht Hk. apply filter_In in Hk. destruct Hk as [Hk HP]. apply match_in in Hk. destruct Hk as (r & Hr & Hmr & <-).
      destruct (t_row t r Ht Hr) as (d & c & Hc & Hcan & Hu). unfold key3 in HP. cbn [fst snd] in HP.
      destruct (row_names d c r Hc Hcan) as [E1 E2]. rewrite E1, E2 in HP. cbn [name_eqb] in HP. rewrite andb_true_iff, !String.eqb_eq in HP. destruct HP as [P1 P2].
      exists r, d, c. destruct (row_facts d c r Hc Hcan) as (F1 & F2 & F3 & _). unfold key3. rewrite F1, F2, F3, P1, P2.
      split; [exact Hr|]. split; [exact Hmr|]. split; [exact Hc|]. split; [exact Hcan|]. split; [rewrite <- P2; exact Hu|]. auto. }
    rewrite (map_ext_in _ (fun t => map (val t) (D t))).
    2: { intros t Ht. unfold for_cell, D. rewrite map_map. apply map_ext_in. intros k Hk. destruct (K t k Ht Hk) as (r & d & c & _ & _ & _ & _ & _ & _ & _ & ->). reflexivity. }
    apply (ordered_cells cs ts ts_order D val).
    - intros t Ht. unfold D. apply (triples_sorted (idx L g) (idx L p)).
      + apply NoDup_filter, isort_NoDup, dkeys_NoDup.
      + intros k Hk. destruct (K t k Ht Hk) as (r & d & c & _ & _ & _ & _ & _ & _ & _ & ->). auto.
      + apply sorted_filter, isort_sorted; [intros; apply lex_leb_total|intros a b c; apply lex_leb_trans].
    - intros t z Ht Hz. unfold D in Hz. apply in_map_iff in Hz. destruct Hz as (k & <- & Hk).
      destruct (K t k Ht Hk) as (r & d & c & Hr & _ & Hc & Hcan & _ & _ & _ & ->). exists r. split; [exact Hr|]. apply (row_facts d c r Hc Hcan).
    - intros z. split.
      + intros (t & Ht & Hz). unfold D in Hz. apply in_map_iff in Hz. destruct Hz as (k & <- & Hk).
        destruct (K t k Ht Hk) as (r & d & c & Hr & Hmr & Hc & Hcan & Hu & E1 & E2 & ->). exists d, c. split; [reflexivity|]. split; [exact Hc|].
        rewrite E1, String.eqb_refl. cbn [andb]. apply smem_In. unfold vpositives. apply filter_In. rewrite <- E2 at 2. split; [|exact Hu].
        apply (positive_row cs Hacc hm pass m Hm d c p Hc). eauto.
      + intros (d & c & -> & Hc & H). rewrite andb_true_iff, String.eqb_eq, smem_In in H. destruct H as [E1 H]. unfold vpositives in H. apply filter_In in H.
        destruct H as [H Hu]. apply (positive_row cs Hacc hm pass m Hm d c p Hc) in H. destruct H as (r & Hcan & Hmr & E2). rewrite <- E2 in Hu.
        assert (Hr : In r (List.concat ts)) by (apply Hrow; eauto). apply in_concat in Hr. destruct Hr as (t & Ht & Hr). exists t. split; [exact Ht|].
        unfold D. apply in_map_iff. exists (key3 r). destruct (row_facts d c r Hc Hcan) as (F1 & _). split; [exact F1|]. apply filter_In. split.
        * apply match_in. eauto.
        * unfold key3. cbn [fst snd]. destruct (row_names d c r Hc Hcan) as [N1 N2]. rewrite N1, N2. cbn [name_eqb]. rewrite E1, E2, !String.eqb_refl. reflexivity.
    - intros t d c Ht Hz Hc. unfold D in Hz. apply in_map_iff in Hz. destruct Hz as (k & Ek & Hk).
      destruct (K t k Ht Hk) as (r & d' & c' & Hr & Hmr & Hc' & Hcan & Hu & E1 & E2 & ->). cbn [fst] in Ek. assert (d' = d) by lia. subst d'.
      assert (c' = c) by congruence. subst c'. unfold val. destruct (row_facts d c r Hc Hcan) as (F1 & F2 & F3 & _).
      rewrite (t_uid t r d c Ht Hr Hc F1). f_equal. unfold match_score.
      destruct (find_first (fun r => (pc_tp m r || pc_misclf m r) && (if zzz_dec (key3 r) (Z.of_nat d, idx L g, idx L p) then true else false)) t) as (x & -> & Hx & E).
      { exists r. split; [exact Hr|]. rewrite tp_or_misclf, Hmr. destruct (zzz_dec _ _) as [_|N]; [reflexivity|]. exfalso. apply N. unfold key3. congruence. }
      rewrite andb_true_iff in E. destruct E as [_ E]. destruct (zzz_dec (key3 x) _) as [Ex|]; [|discriminate]. unfold key3 in Ex. injection Ex as X1 X2 X3.
      destruct (t_row t x Ht Hx) as (d2 & c2 & Hc2 & Hcan2 & _). destruct (row_facts d2 c2 x Hc2 Hcan2) as (Y1 & Y2 & Y3 & _ & _ & Y4).
      assert (d2 = d) by lia. subst d2. assert (c2 = c) by congruence. subst c2.
      assert (El : r_pd_label x = p). { rewrite Y3 in X3. apply String.eqb_eq. rewrite <- (idx_eqb L (r_pd_label x) p Y4 Hp). lia. }
      cbn. symmetry. apply score_of_distinct; [apply (acc_of cs Hacc d c Hc)|exact (proj1 (Forall_forall _ _) Hdist c (nth_error_In _ _ Hc))|].
      rewrite <- El. apply (canon_In L d c x Hcan2).
  Qed.

  Lemma unmatched_in t k : In k (unique_unmatched m t) <-> exists r, In r t /\ pc_unmatched m t r = true /\ key2 r = k.
  Proof. unfold unique_unmatched. rewrite isort_In_iff, dkeys_In. reflexivity. Qed.

  (* a datum of a table is unmatched when nothing is predicted for it *)
  Lemma t_unmatched t r d c : In t ts -> In r t -> nth_error cs d = Some c -> In r (canon_rows L d c) ->
    pc_unmatched m t r = match vpositives u hm pass c with [] => true | _ => false end.
  Proof.
    intros Ht Hr Hc Hcan. destruct (row_facts d c r Hc Hcan) as (F1 & F2 & _). unfold pc_unmatched.
    assert (E : existsb (fun x => m x && same_gt r x) t = true <-> vpositives u hm pass c <> []).
    { rewrite existsb_exists. split.
      - intros (x & Hx & H) En. rewrite andb_true_iff in H. destruct H as [Hmx Hs]. unfold same_gt in Hs. rewrite andb_true_iff in Hs.
        destruct (t_row t x Ht Hx) as (d2 & c2 & Hc2 & Hcan2 & Hu2). destruct (row_facts d2 c2 x Hc2 Hcan2) as (Y1 & _).
        assert (d2 = d) by lia. subst d2. assert (c2 = c) by congruence. subst c2.
        assert (Hin : In (r_pd_label x) (vpositives u hm pass c)).
        { unfold vpositives. apply filter_In. split; [|exact Hu2]. apply (positive_row cs Hacc hm pass m Hm d c _ Hc). eauto. }
        rewrite En in Hin. destruct Hin.
      - intros Hne. destruct (vpositives u hm pass c) as [|p ps] eqn:Ev; [congruence|]. assert (Hp : In p (vpositives u hm pass c)) by (rewrite Ev; left; reflexivity).
        unfold vpositives in Hp. apply filter_In in Hp. destruct Hp as [Hp Hu]. apply (positive_row cs Hacc hm pass m Hm d c p Hc) in Hp.
        destruct Hp as (x & Hcx & Hmx & El). rewrite <- El in Hu. exists x. split; [apply (t_whole t r d c x); auto|].
        rewrite Hmx. destruct (row_facts d c x Hc Hcx) as (Y1 & Y2 & _). unfold same_gt. rewrite F1, F2, Y1, Y2, !Z.eqb_refl. reflexivity. }
    destruct (vpositives u hm pass c) as [|p ps] eqn:Ev.
    - apply negb_true_iff, not_true_iff_false. intros H. apply E in H. congruence.
    - apply negb_false_iff. apply E. discriminate.
  Qed.

  Lemma unmatched_list g : In g L ->
    List.concat (map (fun t => for_unmatched (ce_labels e) t g (unique_unmatched m t)) ts)
    = map (fun c => Some (c_uid c)) (filter (fun c => visible u c && (String.eqb (c_groundtruth c) g
         && match vpositives u hm pass c with [] => true | _ => false end)) cs).
  Proof.
    intros Hg.
    set (D := fun t => map fst (filter (fun k => name_eqb (lab (snd k)) (Some g)) (unique_unmatched m t))).
    assert (K : forall t k, In t ts -> In k (filter (fun k => name_eqb (lab (snd k)) (Some g)) (unique_unmatched m t)) ->
      exists r d c, In r t /\ pc_unmatched m t r = true /\ nth_error cs d = Some c /\ In r (canon_rows L d c) /\ u c (r_pd_label r) = true /\
        c_groundtruth c = g /\ k = (Z.of_nat d, idx L g)).
    { intros t k Ht Hk. apply filter_In in Hk. destruct Hk as [Hk HP]. apply unmatched_in in Hk. destruct Hk as (r & Hr & Hmr & <-).
      destruct (t_row t r Ht Hr) as (d & c & Hc & Hcan & Hu). unfold key2 in HP. cbn [snd] in HP.
      destruct (row_names d c r Hc Hcan) as [E1 _]. rewrite E1 in HP. cbn [name_eqb] in HP. apply String.eqb_eq in HP.
      exists r, d, c. destruct (row_facts d c r Hc Hcan) as (F1 & F2 & _). unfold key2. rewrite F1, F2, HP.
      split; [exact Hr|]. split; [exact Hmr|]. split; [exact Hc|]. split; [exact Hcan|]. split; [exact Hu|]. auto. }
    rewrite (map_ext_in _ (fun t => map (uid_of t) (D t))).
    2: { intros t Ht. unfold for_unmatched, D. rewrite map_map. reflexivity. }
    apply (ordered_cells cs ts ts_order D uid_of).
    - intros t Ht. unfold D. apply (pairs_sorted_fst (idx L g)).
      + apply NoDup_filter, isort_NoDup, dkeys_NoDup.
      + intros k Hk. destruct (K t k Ht Hk) as (r & d & c & _ & _ & _ & _ & _ & _ & ->). auto.
      + apply sorted_filter, isort_sorted; [intros; apply lex_leb_total|intros a b c; apply lex_leb_trans].
    - intros t z Ht Hz. unfold D in Hz. apply in_map_iff in Hz. destruct Hz as (k & <- & Hk).
      destruct (K t k Ht Hk) as (r & d & c & Hr & _ & Hc & Hcan & _ & _ & ->). exists r. split; [exact Hr|]. apply (row_facts d c r Hc Hcan).
    - intros z. split.
      + intros (t & Ht & Hz). unfold D in Hz. apply in_map_iff in Hz. destruct Hz as (k & <- & Hk).
        destruct (K t k Ht Hk) as (r & d & c & Hr & Hun & Hc & Hcan & Hu & E1 & ->). exists d, c. split; [reflexivity|]. split; [exact Hc|].
        rewrite (t_unmatched t r d c Ht Hr Hc Hcan) in Hun. rewrite E1, String.eqb_refl, Hun. cbn [andb]. rewrite andb_true_r.
        unfold visible. apply existsb_exists. exists (r_pd_label r). split; [|exact Hu].
        rewrite <- (row_labels cs d c (acc_of cs Hacc d c Hc)). apply in_map. exact Hcan.
      + intros (d & c & -> & Hc & H). rewrite !andb_true_iff, String.eqb_eq in H. destruct H as [Hv [E1 En]].
        unfold visible in Hv. apply existsb_exists in Hv. destruct Hv as (l & Hl & Hu).
        rewrite <- (row_labels cs d c (acc_of cs Hacc d c Hc)) in Hl. apply in_map_iff in Hl. destruct Hl as (r & <- & Hcan).
        assert (Hr : In r (List.concat ts)) by (apply Hrow; eauto). apply in_concat in Hr. destruct Hr as (t & Ht & Hr). exists t. split; [exact Ht|].
        unfold D. apply in_map_iff. exists (key2 r). destruct (row_facts d c r Hc Hcan) as (F1 & _). split; [exact F1|]. apply filter_In. split.
        * apply unmatched_in. exists r. rewrite (t_unmatched t r d c Ht Hr Hc Hcan). auto.
        * unfold key2. cbn [snd]. destruct (row_names d c r Hc Hcan) as [N1 _]. rewrite N1. cbn [name_eqb]. rewrite E1, String.eqb_refl. reflexivity.
    - intros t d c Ht Hz Hc. unfold D in Hz. apply in_map_iff in Hz. destruct Hz as (k & Ek & Hk).
      destruct (K t k Ht Hk) as (r & d' & c' & Hr & _ & Hc' & Hcan & _ & _ & ->). cbn [fst] in Ek. assert (d' = d) by lia. subst d'.
      apply (t_uid t r d c Ht Hr Hc). apply (row_facts d c' r Hc' Hcan).
  Qed.

  Lemma cls_cmx_meaning : cls_cmx datums e m = Some (cmx_of names u hm pass cs).
  Proof.
    assert (F : forall tl f h, (forall t, In t tl -> In (filter datums t) ts) ->
      fold_left (fun o t => obind o (fun M => cmx_table (ce_labels e) m M (filter datums t))) tl (Some (shaped names f h))
      = Some (shaped names (fun g p => f g p ++ List.concat (map (fun t => for_cell (ce_labels e) m t g p (unique_matches m t)) (map (filter datums) tl)))
          (fun g => h g ++ List.concat (map (fun t => for_unmatched (ce_labels e) t g (unique_unmatched m t)) (map (filter datums) tl))))).
    { induction tl as [|t tl IH]; intros f h Hin.
      - cbn. f_equal. apply shaped_ext; intros; rewrite app_nil_r; reflexivity.
      - cbn [fold_left obind]. rewrite (cmx_table_shape names names_nodup (ce_labels e) m (filter datums t)).
        + rewrite IH by (intros; apply Hin; right; assumption). f_equal. apply shaped_ext; intros; cbn [map List.concat]; rewrite app_assoc; reflexivity.
        + intros k Hk. apply match_in in Hk. destruct Hk as (r & Hr & _ & <-). destruct (t_row _ r (Hin t (or_introl eq_refl)) Hr) as (d & c & Hc & Hcan & _).
          destruct (row_names d c r Hc Hcan) as [E1 E2]. destruct (row_facts d c r Hc Hcan) as (_ & _ & _ & _ & H1 & H2).
          exists (c_groundtruth c), (r_pd_label r). unfold key3. cbn [fst snd]. rewrite <- !names_in. auto.
        + intros k Hk. apply unmatched_in in Hk. destruct Hk as (r & Hr & _ & <-). destruct (t_row _ r (Hin t (or_introl eq_refl)) Hr) as (d & c & Hc & Hcan & _).
          destruct (row_names d c r Hc Hcan) as [E1 _]. destruct (row_facts d c r Hc Hcan) as (_ & _ & _ & _ & H1 & _).
          exists (c_groundtruth c). unfold key2. cbn [snd]. rewrite <- names_in. auto. }
    unfold cls_cmx. change (empty_cmx names) with (shaped names (fun _ _ => []) (fun _ => [])).
    rewrite F by (intros t Ht; unfold ts; apply in_map; exact Ht). fold ts. f_equal. unfold cmx_of.
    apply (shaped_ext names _ _ _ _); intros; rewrite <- ?names_in in *; cbn [app].
    - apply cell_list; assumption.
    - apply unmatched_list; assumption.
  Qed.
End Matrix.

Theorem cls_confusion_examples_meaning cs w e datums sel tol9 hm thrs :
  cls_evaluator cs w e -> Forall distinct_candidates cs -> expresses cs datums sel -> thrs <> [] ->
  cls_confusion_examples tol9 hm thrs datums e
  = Some (map (fun kt => (snd kt, Some (cmx_of (map snd (ce_labels e)) (cselect w sel) hm (pass_cm tol9 (firstn (S (fst kt)) thrs)) cs)))
      (combine (seq 0 (List.length thrs)) thrs)).
Proof.
  intros He Hd Hs Hn. unfold cls_confusion_examples. destruct thrs as [|t0 tl] eqn:E; [congruence|]. rewrite <- E. clear Hn. f_equal.
  apply nth_error_ext. intros k. rewrite !nth_error_map. destruct (nth_error thrs k) as [thr|] eqn:Ek.
  - destruct (masks_nth tol9 hm thrs k thr Ek) as (m & Em & Hm). rewrite (nth_error_combine _ _ _ _ _ Em Ek).
    assert (Es : nth_error (seq 0 (List.length thrs)) k = Some k).
    { assert (k < List.length thrs) by (apply nth_error_Some; congruence). apply nth_error_seq_lt. exact H. }
    rewrite (nth_error_combine _ _ _ _ _ Es Ek). cbn [option_map fst snd]. f_equal. f_equal.
    apply (cls_cmx_meaning cs w e datums sel He Hd Hs hm _ m Hm).
  - assert (Hk : List.length thrs <= k) by (apply nth_error_None; exact Ek).
    rewrite !(proj2 (nth_error_None _ _)); [reflexivity| |]; rewrite combine_length; lia.
Qed.

Lemma sget_map {V} (v : string -> V) names k : sget (map (fun n => (n, v n)) names) k = if smem k names then Some (v k) else None.
Proof.
  unfold sget. induction names as [|a t IH]; [reflexivity|]. cbn [map find fst]. unfold smem in *. cbn [existsb]. rewrite (String.eqb_sym k a).
  destruct (String.eqb_spec a k) as [->|N]; [reflexivity|]. cbn [orb]. exact IH.
Qed.
Lemma cell_at_of names u hm pass cs g p : cell_at (cmx_of names u hm pass cs) g p
  = if smem g names && smem p names then Some (counted (map (fun c => (Some (c_uid c), score_of p c))
      (filter (fun c => String.eqb (c_groundtruth c) g && smem p (vpositives u hm pass c)) cs))) else None.
Proof.
  unfold cell_at, cmx_of. cbn [cx_cells].
  rewrite (sget_map (fun g => map (fun p => (p, counted (map (fun c => (Some (c_uid c), score_of p c))
    (filter (fun c => String.eqb (c_groundtruth c) g && smem p (vpositives u hm pass c)) cs)))) names)).
  destruct (smem g names); [|reflexivity]. cbn [andb].
  rewrite (sget_map (fun p => counted (map (fun c => (Some (c_uid c), score_of p c))
    (filter (fun c => String.eqb (c_groundtruth c) g && smem p (vpositives u hm pass c)) cs)))). reflexivity.
Qed.
Lemma unmatched_of names u hm pass cs g : sget (cx_unmatched (cmx_of names u hm pass cs)) g
  = if smem g names then Some (counted (map (fun c => Some (c_uid c))
        (filter (fun c => visible u c && (String.eqb (c_groundtruth c) g
           && match vpositives u hm pass c with [] => true | _ => false end)) cs))) else None.
Proof.
  unfold cmx_of. cbn [cx_unmatched]. rewrite (sget_map (fun g => counted (map (fun c => Some (c_uid c))
        (filter (fun c => visible u c && (String.eqb (c_groundtruth c) g
           && match vpositives u hm pass c with [] => true | _ => false end)) cs)))). reflexivity.
Qed.
Lemma smem_names cs w e l : cls_evaluator cs w e -> Forall distinct_candidates cs -> smem l (map snd (ce_labels e)) = smem l (labels_of cs).
Proof.
  intros He Hd. pose proof (names_in cs w e He Hd l) as H. destruct (smem l (labels_of cs)) eqn:E.
  - apply smem_In, H, smem_In. exact E.
  - apply not_true_iff_false. intros C. apply smem_In, H, smem_In in C. congruence.
Qed.

Theorem cls_confusion_storage cs w e e' datums sel tol9 hm thrs :
  cls_evaluator cs w e -> cls_evaluator cs w e' -> Forall distinct_candidates cs -> expresses cs datums sel ->
  forall l l' k thr thr' M M', cls_confusion_examples tol9 hm thrs datums e = Some l -> cls_confusion_examples tol9 hm thrs datums e' = Some l' ->
  nth_error l k = Some (thr, Some M) -> nth_error l' k = Some (thr', Some M') ->
  thr = thr' /\ (forall g p, cell_at M g p = cell_at M' g p) /\ (forall g, sget (cx_unmatched M) g = sget (cx_unmatched M') g).
Proof.
  intros He He' Hd Hs l l' k thr thr' M M' El El' Ek Ek'.
  assert (Hn : thrs <> []) by (intros ->; discriminate).
  rewrite (cls_confusion_examples_meaning cs w e datums sel tol9 hm thrs He Hd Hs Hn) in El.
  rewrite (cls_confusion_examples_meaning cs w e' datums sel tol9 hm thrs He' Hd Hs Hn) in El'.
  injection El as <-. injection El' as <-. rewrite nth_error_map in Ek, Ek'.
  destruct (nth_error (combine (seq 0 (List.length thrs)) thrs) k) as [kt|]; [|discriminate]. cbn in Ek, Ek'.
  injection Ek as <- <-. injection Ek' as <- <-. split; [reflexivity|]. split; intros.
  - rewrite !cell_at_of, !(smem_names cs w e) by assumption. rewrite !(smem_names cs w e') by assumption. reflexivity.
  - rewrite !unmatched_of, !(smem_names cs w e) by assumption. rewrite !(smem_names cs w e') by assumption. reflexivity.
Qed.

(* every listed example is listed once for its datum, and its count is the number of examples *)
Lemma counted_ok names u hm pass cs g p n l : cell_at (cmx_of names u hm pass cs) g p = Some (n, l) -> n = List.length l.
Proof. rewrite cell_at_of. destruct (smem g names && smem p names); [|discriminate]. unfold counted. congruence. Qed.
