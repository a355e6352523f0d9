(* The confusion matrix in terms of the inputs: cells count the pairs of a best-first
   matching of every datum; it does not depend on the storage. *)
From Verif Require Import Prelude CacheModel CacheSpec Counting ClsModel ClsLabelProofs SortProofs DetModel DetSpec
  DetMatchProofs DetRankProofs DetCountProofs DetLoaderProofs DetStoreProofs DetMain DetConfProofs.
From Coq Require String.
Local Open Scope nat_scope.
Local Open Scope list_scope.

(* ------------------------------------------------------------------ *)
(** * Nested numbering *)

Section Nest.
  Context {A B : Type}.
  Variable l : list A.
  Variable f : nat -> A -> list B.
  Definition nest : list (nat * B) :=
    concat (map (fun ix => map (fun y => (fst ix, y)) (f (fst ix) (snd ix))) (numbered l)).
  Lemma nest_In i y : In (i, y) nest <-> exists x, nth_error l i = Some x /\ In y (f i x).
  Proof.
    unfold nest. rewrite in_concat. split.
    - intros (m & Hm & Hy). apply in_map_iff in Hm. destruct Hm as ([j x] & <- & Hj). apply in_map_iff in Hy.
      destruct Hy as (y' & E & Hy'). inversion E; subst. apply numbered_In in Hj. exists x. auto.
    - intros (x & Hx & Hy). exists (map (fun y => (i, y)) (f i x)). split.
      + apply in_map_iff. exists (i, x). split; [reflexivity|]. apply numbered_In. exact Hx.
      + apply in_map. exact Hy.
  Qed.
  Lemma nest_length : length nest = list_sum_nat (map (fun ix => length (f (fst ix) (snd ix))) (numbered l)).
  Proof. unfold nest. rewrite length_concat, map_map. apply list_sum_nat_ext. intros x _. apply map_length. Qed.
  Lemma nest_NoDup : (forall i x, nth_error l i = Some x -> NoDup (f i x)) -> NoDup nest.
  Proof.
    intros H. unfold nest. apply NoDup_concat_disj.
    - intros m Hm. apply in_map_iff in Hm. destruct Hm as ([j x] & <- & Hj). apply numbered_In in Hj. cbn [fst snd].
      apply FinFun.Injective_map_NoDup; [|apply H; exact Hj]. intros a b E. inversion E. reflexivity.
    - intros i j li lj a Hi Hj N Ha Hb. rewrite nth_error_map, numbered_nth in Hi, Hj.
      destruct (nth_error l i) as [x|]; [|discriminate]. destruct (nth_error l j) as [x'|]; [|discriminate].
      cbn in Hi, Hj. injection Hi as <-. injection Hj as <-. apply in_map_iff in Ha, Hb.
      destruct Ha as (? & <- & _). destruct Hb as (? & E & _). inversion E. congruence.
  Qed.
End Nest.

Lemma count_keys {X K} (ds : list detection) (sel : detection -> bool) (xs : nat -> detection -> list X) (key : nat -> X -> K) (L : list K) :
  NoDup L ->
  (forall k, In k L <-> exists i d x, nth_error ds i = Some d /\ sel d = true /\ In x (xs i d) /\ k = key i x) ->
  (forall i d, nth_error ds i = Some d -> NoDup (xs i d)) ->
  (forall i j d e x y, nth_error ds i = Some d -> nth_error ds j = Some e -> In x (xs i d) -> In y (xs j e) ->
     key i x = key j y -> i = j /\ x = y) ->
  length L = over_datums sel ds (fun i d => length (xs i d)).
Proof.
  intros HN HL Hx Hinj.
  set (N := nest ds (fun i d => if sel d then xs i d else [])).
  assert (EN : length N = over_datums sel ds (fun i d => length (xs i d))).
  { unfold N. rewrite nest_length. unfold over_datums. apply list_sum_nat_ext. intros [i d] _. cbn [fst snd].
    destruct (sel d); reflexivity. }
  rewrite <- EN. rewrite <- (map_length (fun ix => key (fst ix) (snd ix)) N). apply Permutation_length. apply NoDup_Permutation.
  - exact HN.
  - assert (ND : NoDup N).
    { apply nest_NoDup. intros i d Hi. destruct (sel d); [apply Hx; exact Hi|constructor]. }
    assert (IN : forall a, In a N -> exists d, nth_error ds (fst a) = Some d /\ In (snd a) (xs (fst a) d)).
    { intros [i x] Ha. apply nest_In in Ha. destruct Ha as (d & Hd & Hy). exists d. split; [exact Hd|].
      cbn [fst snd]. destruct (sel d); [exact Hy|destruct Hy]. }
    clear EN HL. induction N as [|a t IH]; [constructor|]. cbn [map]. apply NoDup_cons_iff in ND. destruct ND as [N1 N2].
    constructor; [|apply IH; [exact N2|intros b Hb; apply IN; right; exact Hb]].
    intros Hin. apply in_map_iff in Hin. destruct Hin as (b & E & Hb). apply N1.
    destruct (IN a (or_introl eq_refl)) as (d & Hd & Hxa). destruct (IN b (or_intror Hb)) as (e & He & Hxb).
    destruct (Hinj _ _ _ _ _ _ He Hd Hxb Hxa E) as [E1 E2]. destruct a, b. cbn in *. subst. exact Hb.
  - intros k. rewrite HL, in_map_iff. split.
    + intros (i & d & x & Hi & Hs & Hin & ->). exists (i, x). split; [reflexivity|]. apply nest_In. exists d.
      rewrite Hs. auto.
    + intros ([i x] & <- & Hin). apply nest_In in Hin. destruct Hin as (d & Hd & Hin). exists i, d, x.
      destruct (sel d) eqn:Es; [auto|destruct Hin].
Qed.

Lemma numbered_countb {A} (f : A -> bool) l : length (filter (fun ix => f (snd ix)) (numbered l)) = countb f l.
Proof.
  change (countb (fun ix : nat * A => f (snd ix)) (numbered l) = countb f l).
  rewrite <- (list_sum_nat_if (fun ix : nat * A => f (snd ix))), <- list_sum_nat_if.
  exact (numbered_sum (fun x => if f x then 1 else 0) l).
Qed.

Lemma numbered_NoDup {A} (l : list A) : NoDup (map fst (numbered l)).
Proof.
  unfold numbered. assert (H : forall (m : list A) n, map fst (combine (seq n (length m)) m) = seq n (length m)).
  { induction m as [|x t IH]; intros n; [reflexivity|]. cbn. f_equal. apply IH. }
  rewrite H. apply seq_NoDup.
Qed.

Lemma filter_map_fst_NoDup {A B} (f : A * B -> bool) l : NoDup (map fst l) -> NoDup (map fst (filter f l)).
Proof.
  induction l as [|a t IH]; intros H; [constructor|]. cbn [map] in H. apply NoDup_cons_iff in H. destruct H as [H1 H2].
  cbn [filter]. destruct (f a); [|auto]. cbn [map]. constructor; [|auto]. intros Hin. apply H1.
  apply in_map_iff in Hin. destruct Hin as (b & E & Hb). apply filter_In in Hb. rewrite <- E. apply in_map. tauto.
Qed.

(* explicit lists counted by the specification *)
Definition pair_list (gl pl : String.string) (d : detection) (ok : nat -> nat -> Z -> bool) : list (nat * (nat * nat)) :=
  nest (t_gts d) (fun g ga => if has_label gl ga then
    nest (t_pds d) (fun p pa => map fst (filter (fun kls => String.eqb pl (fst (snd kls)) && ok g p (snd (snd kls)))
      (numbered (combine (a_labels pa) (a_scores pa))))) else []).
Lemma pair_list_length gl pl d ok : length (pair_list gl pl d ok) = count_pairs gl pl d ok.
Proof.
  unfold pair_list, count_pairs. rewrite nest_length. apply list_sum_nat_ext. intros [g ga] _. cbn [fst snd].
  destruct (has_label gl ga); [|reflexivity]. rewrite nest_length. apply list_sum_nat_ext. intros [p pa] _. cbn [fst snd].
  rewrite map_length. apply (numbered_countb (fun ls => String.eqb pl (fst ls) && ok g p (snd ls))).
Qed.
Lemma pair_list_NoDup gl pl d ok : NoDup (pair_list gl pl d ok).
Proof.
  apply nest_NoDup. intros g ga _. destruct (has_label gl ga); [|constructor]. apply nest_NoDup. intros p pa _.
  apply filter_map_fst_NoDup, numbered_NoDup.
Qed.
Lemma combine_nth_error {A B} (l1 : list A) : forall (l2 : list B) k x y,
  nth_error (combine l1 l2) k = Some (x, y) <-> nth_error l1 k = Some x /\ nth_error l2 k = Some y.
Proof.
  induction l1 as [|a t IH]; intros l2 k x y.
  - destruct k; cbn; split; try discriminate; intros [H _]; discriminate.
  - destruct l2 as [|b u].
    + destruct k; cbn; split; try discriminate; intros [_ H]; discriminate.
    + destruct k as [|k]; cbn [combine nth_error]; [|apply IH]. split; [intros H; injection H as <- <-; auto|].
      intros [H1 H2]. congruence.
Qed.
Lemma pd_list_In pl ok pa k :
  In k (map fst (filter (fun kls => String.eqb pl (fst (snd kls)) && ok (snd (snd kls))) (numbered (combine (a_labels pa) (a_scores pa)))))
  <-> exists s, nth_error (a_labels pa) k = Some pl /\ nth_error (a_scores pa) k = Some s /\ ok s = true.
Proof.
  rewrite in_map_iff. split.
  - intros ([k' [l s]] & E & H). cbn in E. subst k'. apply filter_In in H. destruct H as [H1 H2]. apply numbered_In in H1.
    cbn [fst snd] in H2. apply andb_true_iff in H2. destruct H2 as [H2 H3]. apply String.eqb_eq in H2. subst l.
    apply combine_nth_error in H1. exists s. tauto.
  - intros (s & H1 & H2 & H3). exists (k, (pl, s)). split; [reflexivity|]. apply filter_In. split.
    + apply numbered_In. apply combine_nth_error. auto.
    + cbn [fst snd]. rewrite String.eqb_refl. exact H3.
Qed.
Lemma pair_list_In gl pl d ok g p k : In (g, (p, k)) (pair_list gl pl d ok) <->
  exists ga pa s, nth_error (t_gts d) g = Some ga /\ has_label gl ga = true /\ nth_error (t_pds d) p = Some pa /\
    nth_error (a_labels pa) k = Some pl /\ nth_error (a_scores pa) k = Some s /\ ok g p s = true.
Proof.
  unfold pair_list. rewrite nest_In. split.
  - intros (ga & Hg & H). destruct (has_label gl ga) eqn:El; [|destruct H]. apply nest_In in H. destruct H as (pa & Hp & H).
    apply (pd_list_In pl (ok g p)) in H. destruct H as (s & H). exists ga, pa, s. tauto.
  - intros (ga & pa & s & Hg & Hl & Hp & H). exists ga. split; [exact Hg|]. rewrite Hl. apply nest_In. exists pa.
    split; [exact Hp|]. apply (pd_list_In pl (ok g p)). eauto.
Qed.
Definition gt_list (gl : String.string) (d : detection) (ok : nat -> bool) : list nat :=
  map fst (filter (fun ga => has_label gl (snd ga) && ok (fst ga)) (numbered (t_gts d))).
Lemma gt_list_length gl d ok : length (gt_list gl d ok) = count_gts gl d ok.
Proof. unfold gt_list, count_gts. apply map_length. Qed.
Lemma gt_list_NoDup gl d ok : NoDup (gt_list gl d ok).
Proof. apply filter_map_fst_NoDup, numbered_NoDup. Qed.
Lemma gt_list_In gl d ok g : In g (gt_list gl d ok) <->
  exists ga, nth_error (t_gts d) g = Some ga /\ has_label gl ga = true /\ ok g = true.
Proof.
  unfold gt_list. rewrite in_map_iff. split.
  - intros ([g' ga] & E & H). cbn in E. subst g'. apply filter_In in H. destruct H as [H1 H2]. apply numbered_In in H1.
    apply andb_true_iff in H2. exists ga. tauto.
  - intros (ga & H1 & H2 & H3). exists (g, ga). split; [reflexivity|]. apply filter_In. split; [apply numbered_In; exact H1|].
    cbn [fst snd]. rewrite H2. exact H3.
Qed.
Definition pd_list (pl : String.string) (d : detection) (ok : nat -> Z -> bool) : list (nat * nat) :=
  nest (t_pds d) (fun p pa => map fst (filter (fun kls => String.eqb pl (fst (snd kls)) && ok p (snd (snd kls)))
      (numbered (combine (a_labels pa) (a_scores pa))))).
Lemma pd_list_length pl d ok : length (pd_list pl d ok) = count_pds pl d ok.
Proof.
  unfold pd_list, count_pds. rewrite nest_length. apply list_sum_nat_ext. intros [p pa] _. cbn [fst snd].
  rewrite map_length. apply (numbered_countb (fun ls => String.eqb pl (fst ls) && ok p (snd ls))).
Qed.
Lemma pd_list_NoDup pl d ok : NoDup (pd_list pl d ok).
Proof. apply nest_NoDup. intros p pa _. apply filter_map_fst_NoDup, numbered_NoDup. Qed.
Lemma pd_list_In' pl d ok p k : In (p, k) (pd_list pl d ok) <->
  exists pa s, nth_error (t_pds d) p = Some pa /\ nth_error (a_labels pa) k = Some pl /\ nth_error (a_scores pa) k = Some s /\ ok p s = true.
Proof.
  unfold pd_list. rewrite nest_In. split.
  - intros (pa & Hp & H). apply (pd_list_In pl (ok p)) in H. destruct H as (s & H). exists pa, s. tauto.
  - intros (pa & s & Hp & H). exists pa. split; [exact Hp|]. apply (pd_list_In pl (ok p)). eauto.
Qed.

(* ------------------------------------------------------------------ *)
(** * The matching of the code *)

Lemma det_leb_before a b : leP det_leb a b <-> ranked_before a b.
Proof. unfold leP, ranked_before. apply det_leb_spec. Qed.

Lemma sorted_split_before l1 a l2 b l3 : StronglySorted ranked_before (l1 ++ a :: l2 ++ b :: l3) -> ranked_before a b.
Proof.
  intros H. apply StronglySorted_app in H. destruct H as (_ & H & _). apply StronglySorted_inv in H. destruct H as [_ H].
  rewrite Forall_forall in H. apply H. apply in_or_app. right. left. reflexivity.
Qed.

Lemma map_split {A B} (f : A -> B) l : forall l1 x l2, map f l = l1 ++ x :: l2 ->
  exists m1 a m2, l = m1 ++ a :: m2 /\ map f m1 = l1 /\ f a = x /\ map f m2 = l2.
Proof.
  induction l as [|y t IH]; intros l1 x l2 E; [destruct l1; discriminate|].
  destruct l1 as [|z u]; cbn in E; injection E as E1 E2.
  - exists [], y, t. auto.
  - destruct (IH u x l2 E2) as (m1 & a & m2 & -> & H1 & H2 & H3). exists (y :: m1), a, m2. cbn. split; [reflexivity|].
    split; [congruence|auto].
Qed.

Lemma top_score_ge a s : In s (a_scores a) -> (s <= top_score a)%Z.
Proof.
  unfold top_score. destruct (a_scores a) as [|x l]; [intros []|]. intros H.
  assert (G : forall l x, (x <= fold_left Z.max l x)%Z /\ forall y, In y l -> (y <= fold_left Z.max l x)%Z).
  { clear. induction l as [|z u IH]; intros x; cbn; [split; [lia|intros ? []]|]. destruct (IH (Z.max x z)) as [I1 I2].
    split; [lia|]. intros y [->|Hy]; [lia|auto]. }
  destruct (G l x) as [G1 G2]. destruct H as [<-|H]; auto.
Qed.
Lemma top_score_In a : a_scores a <> [] -> In (top_score a) (a_scores a).
Proof.
  unfold top_score. destruct (a_scores a) as [|x l]; [congruence|]. intros _. revert x.
  induction l as [|z u IH]; intros x; cbn [fold_left]; [left; reflexivity|].
  destruct (IH (Z.max x z)) as [H|H]; [|right; right; exact H].
  rewrite <- H. destruct (Z.max_spec x z) as [[_ E]|[_ E]]; rewrite E; [right; left; reflexivity|left; reflexivity].
Qed.

Section Matching.
  Variables (eps unit : Z) (ds : list detection) (L : list String.string) (tables : list (list drow)).
  Hypothesis Hin : det_input unit ds.
  Hypothesis Hst : det_stored eps ds L tables.
  Hypothesis Hfew : few_annotations ds.
  Hypothesis Hdis : Forall distinct_pd_labels ds.
  Hypothesis Hsort : sorted_tables tables.
  Variables (sel : detection -> bool) (datums : drow -> bool).
  Hypothesis Hsel : selects_ids ds datums sel.

  Notation tb' := (filter datums).
  Notation chosen tb := (greedy [] [] (map pair_ids (filter datums tb))).
  Notation rows_iff := (stored_rows eps unit ds L tables Hin Hst).

  Definition zzmem (x : Z * Z) (l : list (Z * Z)) : bool := if in_dec zz_dec x l then true else false.
  Lemma zzmem_In x l : zzmem x l = true <-> In x l.
  Proof. unfold zzmem. destruct (in_dec zz_dec x l); split; congruence || auto. Qed.

  Definition code_matching (i p g : nat) : bool :=
    match nth_error ds i with
    | Some d => (p <? length (t_pds d)) && (g <? length (t_gts d))
                && existsb (fun tb => zzmem (gt_id ds i g, pd_id ds i p) (chosen tb)) tables
    | None => false
    end.

  Lemma code_matching_iff i d p g : nth_error ds i = Some d -> code_matching i p g = true <->
    p < length (t_pds d) /\ g < length (t_gts d) /\ exists tb, In tb tables /\ In (gt_id ds i g, pd_id ds i p) (chosen tb).
  Proof.
    intros Hi. unfold code_matching. rewrite Hi, !andb_true_iff, !Nat.ltb_lt, existsb_exists. split.
    - intros ((H1 & H2) & tb & H3 & H4). apply zzmem_In in H4. eauto.
    - intros (H1 & H2 & tb & H3 & H4). split; [auto|]. exists tb. split; [exact H3|]. apply zzmem_In. exact H4.
  Qed.

  Lemma gt_id_nonneg i g : (0 <= gt_id ds i g)%Z. Proof. unfold gt_id. lia. Qed.
  Lemma pd_id_nonneg i p : (0 <= pd_id ds i p)%Z. Proof. unfold pd_id. lia. Qed.

  (* the row of a chosen pair *)
  Lemma chosen_row i d p g tb : nth_error ds i = Some d -> In tb tables ->
    p < length (t_pds d) -> g < length (t_gts d) ->
    In (gt_id ds i g, pd_id ds i p) (chosen tb) ->
    exists r, In r (tb' tb) /\ d_gt r = gt_id ds i g /\ d_pd r = pd_id ds i p /\ d_datum r = Z.of_nat i /\ (eps <= t_iou d p g)%Z /\
      sel d = true /\ d_iou r = t_iou d p g.
  Proof.
    intros Hi Htb Hp Hg Hc. apply greedy_In in Hc. destruct Hc as [Hc _]. apply in_map_iff in Hc. destruct Hc as (r & E & Hr).
    unfold pair_ids in E. injection E as E1 E2. exists r. assert (Hr' := Hr). apply filter_In in Hr'. destruct Hr' as [Hr1 Hr2].
    assert (Hd : In r (concat tables)) by (apply in_concat; eauto). apply rows_iff in Hd.
    destruct (described_pair _ _ _ _ Hd) as (i' & d' & g' & ga & p' & pa & j & gl & gi & k & pl & s & pi & H1 & H2 & H3 & H4 & H5 & H6 & H7 & H8 & H9 & E).
    { rewrite E1. apply gt_id_nonneg. } { rewrite E2. apply pd_id_nonneg. }
    destruct (nth_error (t_gts d) g) as [ga0|] eqn:Eg; [|apply nth_error_None in Eg; lia].
    destruct (nth_error (t_pds d) p) as [pa0|] eqn:Ep; [|apply nth_error_None in Ep; lia].
    assert (F1 : gt_id ds i g = gt_id ds i' g') by (rewrite <- E1, E; reflexivity).
    assert (F2 : pd_id ds i p = pd_id ds i' p') by (rewrite <- E2, E; reflexivity).
    destruct (gt_id_inj ds i i' d d' g g' ga0 ga Hi H1 Eg H2 F1) as [<- <-].
    destruct (pd_id_inj ds i i d d' p p' pa0 pa Hi H1 Ep H3 F2) as [_ <-].
    assert (d' = d) by congruence. subst d'.
    split; [exact Hr|]. split; [exact E1|]. split; [exact E2|]. split; [rewrite E; reflexivity|]. split; [exact H9|].
    split; [|rewrite E; reflexivity]. rewrite <- Hr2. symmetry. apply (Hsel r i d); [rewrite E; reflexivity|exact Hi].
  Qed.

  (* the table of a datum *)
  Lemma same_table tb tb1 r r1 : In tb tables -> In tb1 tables -> In r tb -> In r1 tb1 -> d_datum r = d_datum r1 -> tb = tb1.
  Proof.
    intros H1 H2 H3 H4 E. apply In_nth_error in H1, H2. destruct H1 as (a & Ha), H2 as (b & Hb).
    assert (a = b) by (apply (stored_aligned eps ds L tables Hst a b tb tb1 r r1 Ha Hb H3 H4 E)). congruence.
  Qed.

  (* a pair with sufficient overlap is stored, with every label of the prediction *)
  Lemma pair_stored i d p pa g ga gl k pl s : nth_error ds i = Some d -> sel d = true ->
    nth_error (t_gts d) g = Some ga -> a_labels ga = [gl] -> nth_error (t_pds d) p = Some pa ->
    nth_error (a_labels pa) k = Some pl -> nth_error (a_scores pa) k = Some s -> (eps <= t_iou d p g)%Z ->
    exists tb r gi pi, In tb tables /\ In r (tb' tb) /\ d_gt r = gt_id ds i g /\ d_pd r = pd_id ds i p /\ d_datum r = Z.of_nat i /\
      index_of gl L = Some gi /\ d_gl r = Z.of_nat gi /\ index_of pl L = Some pi /\ d_pl r = Z.of_nat pi /\ d_score r = s /\ d_iou r = t_iou d p g.
  Proof.
    intros Hi Hs Hg Hgl Hp Hk Hsc Ho.
    destruct (gt_recorded eps unit ds L tables Hin Hst i d g ga gl Hi Hg Hgl) as (_ & gi & _ & Hgi & _).
    destruct (pd_recorded eps unit ds L tables Hin Hst i d p pa k pl s Hi Hp Hk Hsc) as (_ & pi & _ & Hpi & _).
    set (r := MkD (t_uid d) (Z.of_nat i) (Some (a_uid ga)) (gt_id ds i g) (Some gl) (Z.of_nat gi)
           (Some (a_uid pa)) (pd_id ds i p) (Some pl) (Z.of_nat pi) s (t_iou d p g) 0).
    assert (Hr : In r (concat tables)).
    { apply rows_iff. apply (Desc_pair eps ds L i d g ga 0 gl gi p pa k pl s pi); auto. rewrite Hgl. reflexivity. }
    apply in_concat in Hr. destruct Hr as (tb & Htb & Hr). exists tb, r, gi, pi.
    split; [exact Htb|]. split; [|unfold r; cbn; auto 12]. apply filter_In. split; [exact Hr|].
    rewrite (Hsel r i d); auto.
  Qed.

  Lemma pd_len d pa : In d ds -> In pa (t_pds d) -> length (a_labels pa) = length (a_scores pa).
  Proof.
    intros Hd Hp. destruct (inp unit ds Hin d Hd) as (Ho & _ & _). unfold det_ok in Ho. rewrite !andb_true_iff in Ho.
    destruct Ho as [_ Ho]. rewrite forallb_forall in Ho. specialize (Ho pa Hp). apply Nat.eqb_eq in Ho. auto.
  Qed.
  Lemma label_of_score d pa k s : In d ds -> In pa (t_pds d) -> nth_error (a_scores pa) k = Some s -> exists pl, nth_error (a_labels pa) k = Some pl.
  Proof.
    intros Hd Hp Hk. destruct (nth_error (a_labels pa) k) as [pl|] eqn:E; [eauto|]. apply nth_error_None in E.
    assert (k < length (a_scores pa)) by (apply nth_error_Some; congruence). rewrite <- (pd_len d pa Hd Hp) in H. lia.
  Qed.

  Theorem code_best_first i d : nth_error ds i = Some d -> sel d = true -> best_first eps d (code_matching i).
  Proof.
    intros Hi Hs. assert (Hd : In d ds) by (eapply nth_error_In; eauto).
    assert (Range : forall p g, code_matching i p g = true -> exists pa ga, nth_error (t_pds d) p = Some pa /\ nth_error (t_gts d) g = Some ga).
    { intros p g H. apply (code_matching_iff i d p g Hi) in H. destruct H as (H1 & H2 & _).
      destruct (nth_error (t_pds d) p) as [pa|] eqn:E1; [|apply nth_error_None in E1; lia].
      destruct (nth_error (t_gts d) g) as [ga|] eqn:E2; [|apply nth_error_None in E2; lia]. eauto. }
    assert (Same : forall p g p1 g1, code_matching i p g = true -> code_matching i p1 g1 = true ->
       exists tb, In tb tables /\ In (gt_id ds i g, pd_id ds i p) (chosen tb) /\ In (gt_id ds i g1, pd_id ds i p1) (chosen tb)).
    { intros p g p1 g1 H H'. apply (code_matching_iff i d _ _ Hi) in H, H'. destruct H as (H1 & H2 & tb & H3 & H4).
      destruct H' as (H1' & H2' & tb1 & H3' & H4').
      destruct (chosen_row i d p g tb Hi H3 H1 H2 H4) as (r & R1 & _ & _ & R2 & _).
      destruct (chosen_row i d p1 g1 tb1 Hi H3' H1' H2' H4') as (r1 & R1' & _ & _ & R2' & _).
      apply filter_In in R1, R1'. assert (tb = tb1) by (apply (same_table tb tb1 r r1); tauto || congruence). subst tb1. eauto. }
    split.
    - intros p g H. destruct (Range p g H) as (pa & ga & Hp & Hg). exists pa. split; [exact Hp|].
      apply (code_matching_iff i d _ _ Hi) in H. destruct H as (H1 & H2 & tb & H3 & H4).
      destruct (chosen_row i d p g tb Hi H3 H1 H2 H4) as (r & R1 & R2 & R3 & R4 & R5 & _). split; [|split; assumption].
      apply filter_In in R1. destruct R1 as [R1 _].
      assert (Hr : In r (concat tables)) by (apply in_concat; eauto). apply rows_iff in Hr.
      destruct (described_pd _ _ _ _ Hr) as (i' & d' & p' & pa' & k & pl & s & pi & A1 & A2 & A3 & A4 & _ & _ & A5 & _).
      { rewrite R3. apply pd_id_nonneg. }
      rewrite R3 in A5. destruct (pd_id_inj ds i i' d d' p p' pa pa' Hi A1 Hp A2 A5) as [<- <-].
      assert (d' = d) by congruence. subst d'. assert (pa' = pa) by congruence. subst pa'. intros E. rewrite E in A4. destruct k; discriminate.
    - intros p g g' H H'. destruct (Same _ _ _ _ H H') as (tb & _ & C1 & C2).
      destruct (Range _ _ H) as (pa & ga & Hp & Hg). destruct (Range _ _ H') as (_ & ga' & _ & Hg').
      destruct (greedy_NoDup [] [] (map pair_ids (tb' tb))) as [_ N].
      assert (E := NoDup_map_inj snd _ _ _ N C1 C2 eq_refl). injection E as E.
      apply (gt_id_inj ds i i d d g g' ga ga' Hi Hi Hg Hg' E).
    - intros p p' g H H'. destruct (Same _ _ _ _ H H') as (tb & _ & C1 & C2).
      destruct (Range _ _ H) as (pa & ga & Hp & Hg). destruct (Range _ _ H') as (pa' & _ & Hp' & _).
      destruct (greedy_NoDup [] [] (map pair_ids (tb' tb))) as [N _].
      assert (E := NoDup_map_inj fst _ _ _ N C1 C2 eq_refl). injection E as E.
      apply (pd_id_inj ds i i d d p p' pa pa' Hi Hi Hp Hp' E).
    - intros p pa g Hp Hne Hg Ho.
      destruct (nth_error (t_gts d) g) as [ga|] eqn:Eg; [|apply nth_error_None in Eg; lia].
      destruct (single_gt_label unit ds Hin d ga Hd (nth_error_In _ _ Eg)) as (gl & Hgl).
      destruct (In_nth_error _ _ (top_score_In pa Hne)) as (k & Hk).
      destruct (label_of_score d pa k _ Hd (nth_error_In _ _ Hp) Hk) as (pl & Hpl).
      destruct (pair_stored i d p pa g ga gl k pl _ Hi Hs Eg Hgl Hp Hpl Hk Ho)
        as (tb & r & gi & pi & Htb & Hr & R1 & R2 & R3 & _ & _ & _ & _ & R4 & R5).
      (* first occurrence of the pair *)
      assert (Hx : In (gt_id ds i g, pd_id ds i p) (map pair_ids (tb' tb))).
      { apply in_map_iff. exists r. split; [unfold pair_ids; congruence|exact Hr]. }
      destruct (first_occurrence _ _ Hx) as (l1 & l2 & El & Nl).
      destruct (map_split pair_ids (tb' tb) l1 _ l2 El) as (m1 & r0 & m2 & Em & Em1 & Er0 & _).
      assert (Before : ranked_before r0 r \/ r0 = r).
      { rewrite Em in Hr. apply in_app_or in Hr. destruct Hr as [Hr|[Hr|Hr]]; [|auto|].
        - exfalso. apply Nl. rewrite <- Em1. apply in_map_iff. exists r. split; [unfold pair_ids; congruence|exact Hr].
        - apply in_split in Hr. destruct Hr as (u & v & ->). left.
          unfold sorted_tables in Hsort. rewrite Forall_forall in Hsort. assert (S := Hsort tb Htb).
          apply (StronglySorted_filter _ datums) in S. rewrite Em in S. apply sorted_split_before in S. exact S. }
      destruct (greedy_blocked l1 (gt_id ds i g, pd_id ds i p) l2) as [Hsel1|(y & Hy & Hc)].
      { split; cbn; [apply gt_id_nonneg|apply pd_id_nonneg]. }
      + left. apply (code_matching_iff i d _ _ Hi). split; [apply nth_error_Some; congruence|]. split; [exact Hg|].
        exists tb. split; [exact Htb|]. rewrite El. exact Hsel1.
      + right. assert (Hy' : In y (chosen tb)) by (rewrite El; apply greedy_prefix; exact Hy).
        assert (Hyl := greedy_In _ _ _ _ Hy). destruct Hyl as (Hyl & Hval & _). rewrite <- Em1 in Hyl. apply in_map_iff in Hyl.
        destruct Hyl as (q & Eq & Hq). destruct Hval as [V1 V2].
        assert (Hqt : In q (tb' tb)) by (rewrite Em; apply in_or_app; left; exact Hq).
        assert (Hqt' := Hqt). apply filter_In in Hqt'. destruct Hqt' as [Q1 Q2].
        assert (Hqc : In q (concat tables)) by (apply in_concat; eauto). apply rows_iff in Hqc.
        subst y. cbn [fst snd pair_ids] in *.
        destruct (described_pair _ _ _ _ Hqc V1 V2) as (i' & d' & g' & ga' & p' & pa' & j & gl' & gi' & k' & pl' & s' & pi' & H1 & H2 & H3 & H4 & H5 & H6 & H7 & H8 & H9 & E).
        assert (Eg' : d_gt q = gt_id ds i' g') by (rewrite E; reflexivity).
        assert (Ep' : d_pd q = pd_id ds i' p') by (rewrite E; reflexivity).
        assert (Ei : i' = i /\ (p' = p \/ g' = g)).
        { unfold conflict, pair_ids in Hc. cbn [fst snd] in Hc. rewrite Eg', Ep' in Hc. destruct Hc as [Hc|Hc].
          - destruct (gt_id_inj ds i i' d d' g g' ga ga' Hi H1 Eg H2 Hc) as [<- <-]. auto.
          - destruct (pd_id_inj ds i i' d d' p p' pa pa' Hi H1 Hp H3 Hc) as [<- <-]. auto. }
        destruct Ei as [-> Ei]. assert (d' = d) by congruence. subst d'.
        exists p', pa', g'. split; [|split; [exact H3|split; [exact Ei|]]].
        * apply (code_matching_iff i d _ _ Hi). split; [apply nth_error_Some; congruence|]. split; [apply nth_error_Some; congruence|].
          exists tb. split; [exact Htb|]. rewrite <- Eg', <- Ep'. exact Hy'.
        * assert (Hqr : ranked_before q r).
          { assert (Hqr0 : ranked_before q r0).
            { apply in_split in Hq. destruct Hq as (u & v & ->). unfold sorted_tables in Hsort. rewrite Forall_forall in Hsort.
              assert (S := Hsort tb Htb). apply (StronglySorted_filter _ datums) in S. rewrite Em in S.
              rewrite <- app_assoc in S. cbn [app] in S. apply sorted_split_before in S. exact S. }
            destruct Before as [B|<-]; [|exact Hqr0]. clear - Hqr0 B. unfold ranked_before in *. lia. }
          assert (Es : d_score q = s') by (rewrite E; reflexivity). assert (Eo : d_iou q = t_iou d p' g') by (rewrite E; reflexivity).
          assert (T := top_score_ge pa' s' (nth_error_In _ _ H6)).
          unfold ranked_before in Hqr. unfold no_later. rewrite R4, R5, Es, Eo in Hqr. clear - Hqr T. lia.
  Qed.

  Section Thresholds.
  Variables (t s : Z).
  Notation thr tb := (thresholded eps t s (filter datums tb)).
  Notation tok := (table_conf_ok eps unit ds L tables Hin Hst Hfew Hdis sel datums Hsel).

  (* row [r] of table [tb] is about label [k] of prediction [p] and ground truth [g] of datum [i] *)
  Definition about (i g p : nat) (gi pi : nat) (sc : Z) (tb : list drow) (r : drow) : Prop :=
    In tb tables /\ In r (tb' tb) /\ d_datum r = Z.of_nat i /\ d_gt r = gt_id ds i g /\ d_pd r = pd_id ds i p /\
    d_gl r = Z.of_nat gi /\ d_pl r = Z.of_nat pi /\ d_score r = sc.

  Lemma thr_matching i d p pa g ga gl gi k pl pi sc : nth_error ds i = Some d -> sel d = true ->
    nth_error (t_gts d) g = Some ga -> a_labels ga = [gl] -> nth_error (t_pds d) p = Some pa ->
    nth_error (a_labels pa) k = Some pl -> nth_error (a_scores pa) k = Some sc ->
    index_of gl L = Some gi -> index_of pl L = Some pi ->
    code_matching i p g && reaches eps t s d p g sc = true <->
    exists tb r, about i g p gi pi sc tb r /\ thr tb r = true.
  Proof.
    intros Hi Hs Hg Hgl Hp Hk Hsc Hgi Hpi. rewrite andb_true_iff. split.
    - intros [HM HR]. apply (code_matching_iff i d _ _ Hi) in HM. destruct HM as (H1 & H2 & tb & Htb & Hc).
      destruct (chosen_row i d p g tb Hi Htb H1 H2 Hc) as (r1 & A1 & _ & _ & A2 & Ho & _).
      destruct (pair_stored i d p pa g ga gl k pl sc Hi Hs Hg Hgl Hp Hk Hsc Ho)
        as (tb1 & r & gi' & pi' & B1 & B2 & B3 & B4 & B5 & B6 & B7 & B8 & B9 & B10 & B11).
      assert (tb1 = tb).
      { apply (same_table tb1 tb r r1); auto; [apply filter_In in B2; tauto|apply filter_In in A1; tauto|congruence]. }
      subst tb1. exists tb, r. split.
      + repeat (split; [congruence || assumption|]). congruence.
      + apply (thr_spec eps t s _ (tok tb Htb) r B2). unfold reaches in HR. rewrite !andb_true_iff in HR.
        destruct HR as [[[HR1 HR2] HR3] HR4]. split; [|split].
        * unfold pair_ids. rewrite B3, B4. exact Hc.
        * unfold m_iou. rewrite B11, HR3, HR4. reflexivity.
        * unfold m_sc. rewrite B10, HR1, HR2. reflexivity.
    - intros (tb & r & (Htb & Hr & R1 & R2 & R3 & R4 & R5 & R6) & T). apply (thr_spec eps t s _ (tok tb Htb) r Hr) in T.
      destruct T as (T1 & T2 & T3). unfold pair_ids in T1. rewrite R2, R3 in T1.
      assert (Rp : p < length (t_pds d)) by (apply nth_error_Some; congruence).
      assert (Rg : g < length (t_gts d)) by (apply nth_error_Some; congruence).
      destruct (chosen_row i d p g tb Hi Htb Rp Rg T1) as (r1 & A1 & A2 & A3 & A4 & A5 & _ & A6).
      assert (Eo : d_iou r = t_iou d p g).
      { rewrite <- A6. apply (co_ious _ (tok tb Htb) r r1 Hr A1); [rewrite R2; apply gt_id_nonneg|rewrite R3; apply pd_id_nonneg|congruence|congruence]. }
      split.
      + apply (code_matching_iff i d _ _ Hi). eauto.
      + unfold reaches. unfold m_iou in T2. unfold m_sc in T3. rewrite Eo in T2. rewrite R6 in T3.
        apply andb_true_iff in T2, T3. destruct T2 as [-> ->], T3 as [-> ->]. reflexivity.
  Qed.

  (* a thresholded row is about some label of some pair *)
  Lemma thr_about tb r : In tb tables -> In r (tb' tb) -> thr tb r = true ->
    exists i d g ga gl gi p pa k pl pi sc, nth_error ds i = Some d /\ sel d = true /\ nth_error (t_gts d) g = Some ga /\ a_labels ga = [gl] /\
      nth_error (t_pds d) p = Some pa /\ nth_error (a_labels pa) k = Some pl /\ nth_error (a_scores pa) k = Some sc /\
      index_of gl L = Some gi /\ index_of pl L = Some pi /\ about i g p gi pi sc tb r.
  Proof.
    intros Htb Hr T. destruct (thr_valid eps t s _ (tok tb Htb) r Hr T) as [V1 V2].
    assert (Hr' := Hr). apply filter_In in Hr'. destruct Hr' as [Q1 Q2].
    assert (Hc : In r (concat tables)) by (apply in_concat; eauto). apply rows_iff in Hc.
    destruct (described_pair _ _ _ _ Hc V1 V2) as (i & d & g & ga & p & pa & j & gl & gi & k & pl & sc & pi & H1 & H2 & H3 & H4 & H5 & H6 & H7 & H8 & H9 & E).
    destruct (single_gt_label unit ds Hin d ga (nth_error_In _ _ H1) (nth_error_In _ _ H2)) as (gl0 & Hgl).
    rewrite Hgl in H4. destruct j as [|[|j]]; try discriminate. injection H4 as <-.
    exists i, d, g, ga, gl0, gi, p, pa, k, pl, pi, sc. split; [exact H1|]. split.
    { rewrite <- Q2. symmetry. apply (Hsel r i d); [rewrite E; reflexivity|exact H1]. }
    repeat (split; [assumption|]). unfold about. repeat (split; [assumption || (rewrite E; reflexivity)|]). rewrite E. reflexivity.
  Qed.

  Lemma concat_keys_NoDup {K} (dec : forall x y : K, {x = y} + {x <> y}) (key : drow -> K) (P : list drow -> drow -> bool) :
    (forall a b, key a = key b -> d_datum a = d_datum b) ->
    NoDup (concat (map (fun tb => dkeys dec key (P tb) (tb' tb)) tables)).
  Proof.
    intros Hk. apply NoDup_concat_disj.
    - intros l Hl. apply in_map_iff in Hl. destruct Hl as (tb & <- & _). apply dkeys_NoDup.
    - intros i j li lj a Hi Hj N Ha Hb. rewrite nth_error_map in Hi, Hj.
      destruct (nth_error tables i) as [ti|] eqn:Ei; [|discriminate]. destruct (nth_error tables j) as [tj|] eqn:Ej; [|discriminate].
      cbn in Hi, Hj. injection Hi as <-. injection Hj as <-. apply dkeys_In in Ha, Hb.
      destruct Ha as (x & Hx & _ & Kx). destruct Hb as (y & Hy & _ & Ky). apply filter_In in Hx, Hy.
      apply N. apply (stored_aligned eps ds L tables Hst i j ti tj x y Ei Ej); [tauto|tauto|]. apply Hk. congruence.
  Qed.
  Lemma concat_keys_In {K} (dec : forall x y : K, {x = y} + {x <> y}) (key : drow -> K) (P : list drow -> drow -> bool) k :
    In k (concat (map (fun tb => dkeys dec key (P tb) (tb' tb)) tables)) <->
    exists tb r, In tb tables /\ In r (tb' tb) /\ P tb r = true /\ key r = k.
  Proof.
    rewrite in_concat. split.
    - intros (l & Hl & Hk). apply in_map_iff in Hl. destruct Hl as (tb & <- & Htb). apply dkeys_In in Hk.
      destruct Hk as (r & H1 & H2 & H3). eauto 8.
    - intros (tb & r & H1 & H2 & H3 & H4). exists (dkeys dec key (P tb) (tb' tb)). split; [apply in_map_iff; eauto|].
      apply dkeys_In. eauto.
  Qed.

  Lemma has_label_iff l ga : has_label l ga = true <-> In l (a_labels ga).
  Proof.
    unfold has_label. rewrite existsb_exists. split.
    - intros (x & H & E). apply String.eqb_eq in E. congruence.
    - intros H. exists l. split; [exact H|apply String.eqb_refl].
  Qed.

  Theorem cells_spec gl gi pl pi : index_of gl L = Some gi -> index_of pl L = Some pi ->
    dm (eval_confusion eps t s datums tables) (Z.of_nat gi) (Z.of_nat pi)
    = over_datums sel ds (fun i d => count_pairs gl pl d (fun g p sc => code_matching i p g && reaches eps t s d p g sc)).
  Proof.
    intros Hgi Hpi.
    rewrite (proj1 (eval_confusion_sums eps t s datums tables (Z.of_nat gi) (Z.of_nat pi))).
    set (P := fun tb r => thr tb r && (d_gl r =? Z.of_nat gi)%Z && (d_pl r =? Z.of_nat pi)%Z).
    transitivity (length (concat (map (fun tb => dkeys z5_dec row_ids (P tb) (tb' tb)) tables))).
    { rewrite length_concat, map_map. apply list_sum_nat_ext. intros tb Htb. apply cell_count. }
    rewrite (count_keys ds sel (fun i d => pair_list gl pl d (fun g p sc => code_matching i p g && reaches eps t s d p g sc))
       (fun i x => (Z.of_nat i, gt_id ds i (fst x), pd_id ds i (fst (snd x)), Z.of_nat gi, Z.of_nat pi))).
    - unfold over_datums. apply list_sum_nat_ext. intros [i d] _. cbn [fst snd]. destruct (sel d); [|reflexivity]. apply pair_list_length.
    - apply concat_keys_NoDup. intros a b E. unfold row_ids in E. congruence.
    - intros kk. rewrite (concat_keys_In z5_dec row_ids P). split.
      + intros (tb & r & Htb & Hr & HP & <-). unfold P in HP. rewrite !andb_true_iff, !Z.eqb_eq in HP. destruct HP as [[T E1] E2].
        destruct (thr_about tb r Htb Hr T) as (i & d & g & ga & gl' & gi' & p & pa & k & pl' & pi' & sc & A1 & A2 & A3 & A4 & A5 & A6 & A7 & A8 & A9 & A10).
        assert (A10' := A10). destruct A10' as (_ & _ & B1 & B2 & B3 & B4 & B5 & B6).
        assert (gi' = gi) by lia. assert (pi' = pi) by lia. subst gi' pi'.
        assert (gl' = gl) by (eapply index_of_inj; eassumption). assert (pl' = pl) by (eapply index_of_inj; eassumption).
        subst gl' pl'. exists i, d, (g, (p, k)). split; [exact A1|]. split; [exact A2|]. split.
        * apply pair_list_In. exists ga, pa, sc. repeat (split; [assumption || (apply has_label_iff; rewrite A4; left; reflexivity)|]).
          apply (thr_matching i d p pa g ga gl gi k pl pi sc); auto. eauto.
        * unfold row_ids. cbn [fst snd]. congruence.
      + intros (i & d & [g [p k]] & Hi & Hs & Hx & ->). apply pair_list_In in Hx. destruct Hx as (ga & pa & sc & A1 & A2 & A3 & A4 & A5 & A6).
        destruct (single_gt_label unit ds Hin d ga (nth_error_In _ _ Hi) (nth_error_In _ _ A1)) as (gl0 & Hgl).
        apply has_label_iff in A2. rewrite Hgl in A2. destruct A2 as [->|[]].
        apply (thr_matching i d p pa g ga gl gi k pl pi sc Hi Hs A1 Hgl A3 A4 A5 Hgi Hpi) in A6.
        destruct A6 as (tb & r & (B1 & B2 & B3 & B4 & B5 & B6 & B7 & B8) & T). exists tb, r. split; [exact B1|]. split; [exact B2|]. split.
        * unfold P. rewrite T, B6, B7, !Z.eqb_refl. reflexivity.
        * unfold row_ids. cbn [fst snd]. congruence.
    - intros i d _. apply pair_list_NoDup.
    - intros i j d e [g [p k]] [g' [p' k']] Hi Hj Hx Hy E. apply pair_list_In in Hx, Hy.
      destruct Hx as (ga & pa & sc & A1 & _ & A3 & A4 & _). destruct Hy as (ga' & pa' & sc' & B1 & _ & B3 & B4 & _).
      cbn [fst snd] in E. injection E as E0 E1 E2. destruct (gt_id_inj ds i j d e g g' ga ga' Hi Hj A1 B1 E1) as [<- <-].
      destruct (pd_id_inj ds i i d e p p' pa pa' Hi Hj A3 B3 E2) as [_ <-]. split; [reflexivity|].
      assert (e = d) by congruence. subst e. assert (pa' = pa) by congruence. subst pa'.
      assert (N : NoDup (a_labels pa)).
      { rewrite Forall_forall in Hdis. apply (Hdis d (nth_error_In _ _ Hi)). apply (nth_error_In _ _ A3). }
      assert (k = k'); [|congruence]. rewrite NoDup_nth_error in N. apply N; [apply nth_error_Some; congruence|congruence].
  Qed.

  Lemma gt_covered_iff i d g ga : nth_error ds i = Some d -> sel d = true -> nth_error (t_gts d) g = Some ga ->
    gt_covered eps t s d (code_matching i) g = true <->
    exists tb x, In tb tables /\ In x (tb' tb) /\ thr tb x = true /\ d_gt x = gt_id ds i g.
  Proof.
    intros Hi Hs Hg. unfold gt_covered. rewrite existsb_exists. split.
    - intros ([p pa] & Hp & H). apply numbered_In in Hp. cbn [fst snd] in H. apply andb_true_iff in H. destruct H as [HM HR].
      apply existsb_exists in HR. destruct HR as (sc & Hsc & HR). apply In_nth_error in Hsc. destruct Hsc as (k & Hk).
      destruct (label_of_score d pa k sc (nth_error_In _ _ Hi) (nth_error_In _ _ Hp) Hk) as (pl & Hpl).
      destruct (single_gt_label unit ds Hin d ga (nth_error_In _ _ Hi) (nth_error_In _ _ Hg)) as (gl & Hgl).
      destruct (gt_recorded eps unit ds L tables Hin Hst i d g ga gl Hi Hg Hgl) as (_ & gi & _ & Hgi & _).
      destruct (pd_recorded eps unit ds L tables Hin Hst i d p pa k pl sc Hi Hp Hpl Hk) as (_ & pi & _ & Hpi & _).
      destruct (proj1 (thr_matching i d p pa g ga gl gi k pl pi sc Hi Hs Hg Hgl Hp Hpl Hk Hgi Hpi)) as (tb & r & A & T).
      { rewrite HM, HR. reflexivity. }
      destruct A as (A1 & A2 & A3 & A4 & _). exists tb, r. auto.
    - intros (tb & x & Htb & Hx & T & Eg).
      destruct (thr_about tb x Htb Hx T) as (i' & d' & g' & ga' & gl' & gi' & p & pa & k & pl' & pi' & sc & A1 & A2 & A3 & A4 & A5 & A6 & A7 & A8 & A9 & A10).
      assert (A10' := A10). destruct A10' as (_ & _ & B1 & B2 & _). rewrite Eg in B2.
      destruct (gt_id_inj ds i i' d d' g g' ga ga' Hi A1 Hg A3 B2) as [<- <-]. assert (d' = d) by congruence. subst d'.
      exists (p, pa). split; [apply numbered_In; exact A5|]. cbn [fst snd].
      assert (X : code_matching i p g && reaches eps t s d p g sc = true).
      { apply (thr_matching i d p pa g ga' gl' gi' k pl' pi' sc); auto. eauto. }
      apply andb_true_iff in X. destruct X as [-> X]. cbn [andb]. apply existsb_exists. exists sc. split; [|exact X].
      eapply nth_error_In; eauto.
  Qed.

  Lemma pd_covered_iff i d p pa : nth_error ds i = Some d -> sel d = true -> nth_error (t_pds d) p = Some pa ->
    pd_covered eps t s d (code_matching i) p = true <->
    exists tb x, In tb tables /\ In x (tb' tb) /\ thr tb x = true /\ d_pd x = pd_id ds i p.
  Proof.
    intros Hi Hs Hp. unfold pd_covered. rewrite Hp, existsb_exists. split.
    - intros (g & Hg & H). apply in_seq in Hg. apply andb_true_iff in H. destruct H as [HM HR].
      destruct (nth_error (t_gts d) g) as [ga|] eqn:Eg; [|apply nth_error_None in Eg; lia].
      apply existsb_exists in HR. destruct HR as (sc & Hsc & HR). apply In_nth_error in Hsc. destruct Hsc as (k & Hk).
      destruct (label_of_score d pa k sc (nth_error_In _ _ Hi) (nth_error_In _ _ Hp) Hk) as (pl & Hpl).
      destruct (single_gt_label unit ds Hin d ga (nth_error_In _ _ Hi) (nth_error_In _ _ Eg)) as (gl & Hgl).
      destruct (gt_recorded eps unit ds L tables Hin Hst i d g ga gl Hi Eg Hgl) as (_ & gi & _ & Hgi & _).
      destruct (pd_recorded eps unit ds L tables Hin Hst i d p pa k pl sc Hi Hp Hpl Hk) as (_ & pi & _ & Hpi & _).
      destruct (proj1 (thr_matching i d p pa g ga gl gi k pl pi sc Hi Hs Eg Hgl Hp Hpl Hk Hgi Hpi)) as (tb & r & A & T).
      { rewrite HM, HR. reflexivity. }
      destruct A as (A1 & A2 & A3 & A4 & A5 & _). exists tb, r. auto.
    - intros (tb & x & Htb & Hx & T & Ep).
      destruct (thr_about tb x Htb Hx T) as (i' & d' & g & ga' & gl' & gi' & p' & pa' & k & pl' & pi' & sc & A1 & A2 & A3 & A4 & A5 & A6 & A7 & A8 & A9 & A10).
      assert (A10' := A10). destruct A10' as (_ & _ & B1 & B2 & B3 & _). rewrite Ep in B3.
      destruct (pd_id_inj ds i i' d d' p p' pa pa' Hi A1 Hp A5 B3) as [<- <-]. assert (d' = d) by congruence. subst d'.
      assert (pa' = pa) by congruence. subst pa'.
      exists g. split; [apply in_seq; split; [lia|]; apply nth_error_Some; congruence|].
      assert (X : code_matching i p g && reaches eps t s d p g sc = true).
      { apply (thr_matching i d p pa g ga' gl' gi' k pl' pi' sc); auto. eauto. }
      apply andb_true_iff in X. destruct X as [-> X]. cbn [andb]. apply existsb_exists. exists sc. split; [|exact X].
      eapply nth_error_In; eauto.
  Qed.

  Theorem alone_gts_spec gl gi : index_of gl L = Some gi ->
    dm_gt (eval_confusion eps t s datums tables) (Z.of_nat gi)
    = over_datums sel ds (fun i d => count_gts gl d (fun g => negb (gt_covered eps t s d (code_matching i) g))).
  Proof.
    intros Hgi.
    rewrite (proj1 (proj2 (eval_confusion_sums eps t s datums tables (Z.of_nat gi) 0%Z))).
    set (P := fun tb r => dp_unmatched_gt eps t s (tb' tb) r && (d_gl r =? Z.of_nat gi)%Z).
    transitivity (length (concat (map (fun tb => dkeys zzz_dec gt_key (P tb) (tb' tb)) tables))).
    { rewrite length_concat, map_map. apply list_sum_nat_ext. intros tb Htb. unfold det_confusion. cbn [dm_gt].
      apply (dkeys_countb zzz_dec gt_key _ (fun k => (snd k =? Z.of_nat gi)%Z)). }
    rewrite (count_keys ds sel (fun i d => gt_list gl d (fun g => negb (gt_covered eps t s d (code_matching i) g)))
       (fun i g => (Z.of_nat i, gt_id ds i g, Z.of_nat gi))).
    - unfold over_datums. apply list_sum_nat_ext. intros [i d] _. cbn [fst snd]. destruct (sel d); [|reflexivity]. apply gt_list_length.
    - apply concat_keys_NoDup. intros a b E. unfold gt_key in E. congruence.
    - intros kk. rewrite (concat_keys_In zzz_dec gt_key P). split.
      + intros (tb & r & Htb & Hr & HP & <-). unfold P in HP. rewrite andb_true_iff, Z.eqb_eq in HP. destruct HP as [U E1].
        unfold dp_unmatched_gt in U. apply andb_true_iff in U. destruct U as [U1 U2]. apply negb_true_iff in U1.
        unfold gt_exists in U2. apply Z.leb_le in U2.
        assert (Hr' := Hr). apply filter_In in Hr'. destruct Hr' as [Q1 Q2].
        assert (Hc : In r (concat tables)) by (apply in_concat; eauto). apply rows_iff in Hc.
        destruct (described_gt _ _ _ _ Hc U2) as (i & d & g & ga & j & gl' & gi' & A1 & A2 & A3 & A4 & A5 & A6 & A7 & _).
        assert (gi' = gi) by lia. subst gi'. assert (gl' = gl) by (eapply index_of_inj; eassumption). subst gl'.
        exists i, d, g. split; [exact A1|]. assert (Hs : sel d = true) by (rewrite <- Q2; symmetry; apply (Hsel r i d); assumption).
        split; [exact Hs|]. split; [|unfold gt_key; congruence]. apply gt_list_In. exists ga. split; [exact A2|].
        split; [apply has_label_iff; eapply nth_error_In; eauto|]. apply negb_true_iff.
        destruct (gt_covered eps t s d (code_matching i) g) eqn:Ec; [|reflexivity].
        apply (gt_covered_iff i d g ga A1 Hs A2) in Ec. destruct Ec as (tb1 & x & B1 & B2 & B3 & B4).
        assert (Hx' := B2). apply filter_In in Hx'. destruct Hx' as [X1 X2].
        assert (Hxc : In x (concat tables)) by (apply in_concat; eauto).
        assert (Hrc : In r (concat tables)) by (apply in_concat; eauto).
        assert (Ed : d_datum x = d_datum r).
        { apply (stored_gts_in_one eps unit ds L tables Hin Hst x r Hxc Hrc); [rewrite B4; apply gt_id_nonneg|congruence]. }
        assert (tb1 = tb) by (apply (same_table tb1 tb x r); auto). subst tb1. exfalso.
        assert (isin (map (fun x => (d_datum x, d_gt x)) (filter (thr tb) (tb' tb))) (d_datum r, d_gt r) = true); [|congruence].
        apply (isin_gt eps t s _ (tok tb Htb) r Hr). exists x. split; [exact B2|]. split; [exact B3|]. split; congruence.
      + intros (i & d & g & Hi & Hs & Hx & ->). apply gt_list_In in Hx. destruct Hx as (ga & A1 & A2 & A3).
        destruct (single_gt_label unit ds Hin d ga (nth_error_In _ _ Hi) (nth_error_In _ _ A1)) as (gl0 & Hgl).
        apply has_label_iff in A2. rewrite Hgl in A2. destruct A2 as [->|[]].
        destruct (gt_recorded eps unit ds L tables Hin Hst i d g ga gl Hi A1 Hgl) as (r & gi' & Hr & Hgi' & R1 & R2 & R3).
        assert (gi' = gi) by congruence. subst gi'. apply in_concat in Hr. destruct Hr as (tb & Htb & Hr).
        assert (Hrt : In r (tb' tb)) by (apply filter_In; split; [exact Hr|]; rewrite (Hsel r i d); assumption).
        exists tb, r. split; [exact Htb|]. split; [exact Hrt|]. split; [|unfold gt_key; congruence].
        unfold P, dp_unmatched_gt, gt_exists. rewrite R3, Z.eqb_refl, andb_true_r.
        assert (0 <=? d_gt r = true)%Z as -> by (apply Z.leb_le; rewrite R2; apply gt_id_nonneg). rewrite andb_true_r.
        apply negb_true_iff. apply negb_true_iff in A3.
        destruct (isin _ (d_datum r, d_gt r)) eqn:Ei; [|reflexivity]. exfalso.
        apply (isin_gt eps t s _ (tok tb Htb) r Hrt) in Ei. destruct Ei as (x & X1 & X2 & X3 & X4).
        assert (gt_covered eps t s d (code_matching i) g = true); [|congruence].
        apply (gt_covered_iff i d g ga Hi Hs A1). exists tb, x. split; [exact Htb|]. split; [exact X1|]. split; [exact X2|congruence].
    - intros i d _. apply gt_list_NoDup.
    - intros i j d e g g' Hi Hj Hx Hy E. apply gt_list_In in Hx, Hy.
      destruct Hx as (ga & A1 & _). destruct Hy as (ga' & B1 & _).
      injection E as E0 E1. destruct (gt_id_inj ds i j d e g g' ga ga' Hi Hj A1 B1 E1) as [<- <-]. auto.
  Qed.

  Theorem alone_pds_spec pl pi : index_of pl L = Some pi ->
    dm_pd (eval_confusion eps t s datums tables) (Z.of_nat pi)
    = over_datums sel ds (fun i d => count_pds pl d (fun p sc => (eps <? sc)%Z && (s <=? sc)%Z && negb (pd_covered eps t s d (code_matching i) p))).
  Proof.
    intros Hpi.
    rewrite (proj2 (proj2 (eval_confusion_sums eps t s datums tables 0%Z (Z.of_nat pi)))).
    set (P := fun tb r => dp_unmatched_pd eps t s (tb' tb) r && (d_pl r =? Z.of_nat pi)%Z).
    transitivity (length (concat (map (fun tb => dkeys zzz_dec pd_key (P tb) (tb' tb)) tables))).
    { rewrite length_concat, map_map. apply list_sum_nat_ext. intros tb Htb. unfold det_confusion. cbn [dm_pd].
      apply (dkeys_countb zzz_dec pd_key _ (fun k => (snd k =? Z.of_nat pi)%Z)). }
    rewrite (count_keys ds sel (fun i d => pd_list pl d (fun p sc => (eps <? sc)%Z && (s <=? sc)%Z && negb (pd_covered eps t s d (code_matching i) p)))
       (fun i x => (Z.of_nat i, pd_id ds i (fst x), Z.of_nat pi))).
    - unfold over_datums. apply list_sum_nat_ext. intros [i d] _. cbn [fst snd]. destruct (sel d); [|reflexivity]. apply pd_list_length.
    - apply concat_keys_NoDup. intros a b E. unfold pd_key in E. congruence.
    - intros kk. rewrite (concat_keys_In zzz_dec pd_key P). split.
      + intros (tb & r & Htb & Hr & HP & <-). unfold P in HP. rewrite andb_true_iff, Z.eqb_eq in HP. destruct HP as [U E1].
        unfold dp_unmatched_pd in U. rewrite !andb_true_iff in U. destruct U as [[U1 U2] U3]. apply negb_true_iff in U1.
        unfold pd_exists in U2. apply Z.leb_le in U2.
        assert (Hr' := Hr). apply filter_In in Hr'. destruct Hr' as [Q1 Q2].
        assert (Hc : In r (concat tables)) by (apply in_concat; eauto). apply rows_iff in Hc.
        destruct (described_pd _ _ _ _ Hc U2) as (i & d & p & pa & k & pl' & sc & pi' & A1 & A2 & A3 & A4 & A5 & A6 & A7 & A8 & A9 & _).
        assert (pi' = pi) by lia. subst pi'. assert (pl' = pl) by (eapply index_of_inj; eassumption). subst pl'.
        exists i, d, (p, k). split; [exact A1|]. assert (Hs : sel d = true) by (rewrite <- Q2; symmetry; apply (Hsel r i d); assumption).
        split; [exact Hs|]. split; [|unfold pd_key; cbn [fst snd]; congruence]. apply pd_list_In'. exists pa, sc. split; [exact A2|].
        split; [exact A3|]. split; [exact A4|]. unfold m_sc in U3. rewrite A9 in U3. rewrite U3. cbn [andb]. apply negb_true_iff.
        destruct (pd_covered eps t s d (code_matching i) p) eqn:Ec; [|reflexivity].
        apply (pd_covered_iff i d p pa A1 Hs A2) in Ec. destruct Ec as (tb1 & x & B1 & B2 & B3 & B4).
        assert (Hx' := B2). apply filter_In in Hx'. destruct Hx' as [X1 X2].
        assert (Hxc : In x (concat tables)) by (apply in_concat; eauto).
        assert (Hrc : In r (concat tables)) by (apply in_concat; eauto).
        assert (Ed : d_datum x = d_datum r).
        { apply (stored_pds_in_one eps unit ds L tables Hin Hst x r Hxc Hrc); [rewrite B4; apply pd_id_nonneg|congruence]. }
        assert (tb1 = tb) by (apply (same_table tb1 tb x r); auto). subst tb1. exfalso.
        assert (isin (map (fun x => (d_datum x, d_pd x)) (filter (thr tb) (tb' tb))) (d_datum r, d_pd r) = true); [|congruence].
        apply (isin_pd eps t s _ (tok tb Htb) r Hr). exists x. split; [exact B2|]. split; [exact B3|]. split; congruence.
      + intros (i & d & [p k] & Hi & Hs & Hx & ->). apply pd_list_In' in Hx. destruct Hx as (pa & sc & A1 & A2 & A3 & A4).
        rewrite andb_true_iff in A4. destruct A4 as [A4 A5]. apply negb_true_iff in A5.
        destruct (pd_recorded eps unit ds L tables Hin Hst i d p pa k pl sc Hi A1 A2 A3) as (r & pi' & Hr & Hpi' & R1 & R2 & R3 & R4).
        assert (pi' = pi) by congruence. subst pi'. apply in_concat in Hr. destruct Hr as (tb & Htb & Hr).
        assert (Hrt : In r (tb' tb)) by (apply filter_In; split; [exact Hr|]; rewrite (Hsel r i d); assumption).
        exists tb, r. split; [exact Htb|]. split; [exact Hrt|]. split; [|unfold pd_key; cbn [fst snd]; congruence].
        unfold P, dp_unmatched_pd, pd_exists, m_sc. rewrite R3, Z.eqb_refl, andb_true_r, R4, A4, andb_true_r.
        assert (0 <=? d_pd r = true)%Z as -> by (apply Z.leb_le; rewrite R2; apply pd_id_nonneg). rewrite andb_true_r.
        apply negb_true_iff.
        destruct (isin _ (d_datum r, d_pd r)) eqn:Ei; [|reflexivity]. exfalso.
        apply (isin_pd eps t s _ (tok tb Htb) r Hrt) in Ei. destruct Ei as (x & X1 & X2 & X3 & X4).
        assert (pd_covered eps t s d (code_matching i) p = true); [|congruence].
        apply (pd_covered_iff i d p pa Hi Hs A1). exists tb, x. split; [exact Htb|]. split; [exact X1|]. split; [exact X2|congruence].
    - intros i d _. apply pd_list_NoDup.
    - intros i j d e [p k] [p' k'] Hi Hj Hx Hy E. apply pd_list_In' in Hx, Hy.
      destruct Hx as (pa & sc & A1 & A2 & _). destruct Hy as (pa' & sc' & B1 & B2 & _). cbn [fst snd] in E.
      injection E as E0 E1. destruct (pd_id_inj ds i j d e p p' pa pa' Hi Hj A1 B1 E1) as [<- <-]. split; [reflexivity|].
      assert (e = d) by congruence. subst e. assert (pa' = pa) by congruence. subst pa'.
      assert (N : NoDup (a_labels pa)).
      { rewrite Forall_forall in Hdis. apply (Hdis d (nth_error_In _ _ Hi)). apply (nth_error_In _ _ A1). }
      assert (k = k'); [|congruence]. rewrite NoDup_nth_error in N. apply N; [apply nth_error_Some; congruence|congruence].
  Qed.
  End Thresholds.
End Matching.
