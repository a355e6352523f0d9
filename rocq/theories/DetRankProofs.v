(* Ranking of detection pairs (C27) and IoU boundaries. *)
From Verif Require Import Prelude Counting CacheModel CacheSpec SortProofs ClsModel ClsProofs DetModel.
From Coq Require Import Lia String.
Local Open Scope nat_scope.
Local Open Scope list_scope.

(* ------------------------------------------------------------------ *)
(** * First occurrences *)

Section FirstsP.
  Context {A K : Type}.
  Variable dec : forall x y : K, {x = y} + {x <> y}.
  Variable key : A -> K.

  Lemma kmem_In k l : kmem dec k l = true <-> In k l.
  Proof. unfold kmem. destruct (in_dec dec k l); split; auto; discriminate. Qed.

  Lemma firsts_In seen l b :
    In b (firsts dec key seen l) <->
    exists l1 l2, l = l1 ++ b :: l2 /\ ~ In (key b) seen /\ ~ In (key b) (map key l1).
  Proof.
    revert seen. induction l as [|a t IH]; intros seen.
    - simpl. split; [intros []|]. intros (l1 & l2 & E & _). destruct l1; discriminate.
    - cbn [firsts]. destruct (kmem dec (key a) seen) eqn:Em.
      + apply kmem_In in Em. rewrite IH. split.
        * intros (l1 & l2 & -> & Hs & Hn). exists (a :: l1), l2. split; [reflexivity|].
          split; [exact Hs|]. intros [E|E]; [apply Hs; rewrite <- E; exact Em|apply Hn; exact E].
        * intros (l1 & l2 & E & Hs & Hn). destruct l1 as [|a' l1]; simpl in E; inversion E; subst.
          { contradiction. }
          exists l1, l2. split; [reflexivity|]. split; [exact Hs|]. intros H; apply Hn; right; exact H.
      + assert (Hna : ~ In (key a) seen) by (rewrite <- kmem_In; congruence).
        split.
        * intros [<-|H].
          { exists [], t. split; [reflexivity|]. split; [exact Hna|intros []]. }
          apply IH in H. destruct H as (l1 & l2 & -> & Hs & Hn).
          exists (a :: l1), l2. split; [reflexivity|]. split; [intros H; apply Hs; right; exact H|].
          intros [E|E]; [apply Hs; left; exact E|apply Hn; exact E].
        * intros (l1 & l2 & E & Hs & Hn). destruct l1 as [|a' l1]; simpl in E; inversion E; subst.
          { left; reflexivity. }
          right. apply IH. exists l1, l2. split; [reflexivity|]. split.
          { intros [H|H]; [apply Hn; left; exact H|contradiction]. }
          intros H; apply Hn; right; exact H.
  Qed.

  Lemma firsts_not_seen seen l b : In b (firsts dec key seen l) -> ~ In (key b) seen.
  Proof. intros H. apply firsts_In in H. destruct H as (l1 & l2 & _ & H & _). exact H. Qed.

  Lemma firsts_NoDup seen l : NoDup (map key (firsts dec key seen l)).
  Proof.
    revert seen. induction l as [|a t IH]; intros seen; [constructor|].
    cbn [firsts]. destruct (kmem dec (key a) seen); [apply IH|].
    cbn [map]. constructor; [|apply IH].
    intros H. apply in_map_iff in H. destruct H as (b & E & Hb).
    apply firsts_not_seen in Hb. apply Hb. left; congruence.
  Qed.

  (* every element has a representative at or before it *)
  Lemma firsts_cover l1 a l2 : exists b, In b (firsts dec key [] (l1 ++ a :: l2)) /\ key b = key a /\
    (In b l1 \/ b = a).
  Proof.
    destruct (in_dec dec (key a) (map key l1)) as [H|H].
    - apply in_map_iff in H. destruct H as (c & Ec & Hc). revert Ec.
      (* first element of l1 with that key *)
      assert (Hx : forall l k, In k (map key l) -> exists m1 b m2, l = m1 ++ b :: m2 /\ key b = k /\ ~ In k (map key m1)).
      { clear -dec. induction l as [|x t IH]; intros k; [intros []|]. intros H.
        destruct (dec (key x) k) as [E|E].
        - exists [], x, t. repeat split; auto.
        - destruct H as [H|H]; [contradiction|]. destruct (IH k H) as (m1 & b & m2 & -> & E2 & Hn).
          exists (x :: m1), b, m2. repeat split; auto. intros [H'|H']; contradiction. }
      intros Ec. destruct (Hx l1 (key a)) as (m1 & b & m2 & -> & E2 & Hn).
      { rewrite <- Ec. apply in_map. exact Hc. }
      exists b. split; [|split; [exact E2|left; apply in_elt]].
      apply firsts_In. exists m1, (m2 ++ a :: l2). split; [rewrite <- app_assoc; reflexivity|].
      split; [intros []|]. rewrite E2. exact Hn.
    - exists a. split; [|auto]. apply firsts_In. exists l1, l2. split; [reflexivity|]. split; [intros []|exact H].
  Qed.
End FirstsP.

(* ------------------------------------------------------------------ *)
(** * Stable sorts and subsequences *)

Section StableSub.
  Context {A : Type}.
  Variable leb : A -> A -> bool.
  Hypothesis leb_total : forall x y, leb x y = true \/ leb y x = true.
  Hypothesis leb_trans : forall x y z, leb x y = true -> leb y z = true -> leb x z = true.

  Lemma stable_sort_filter (P : A -> bool) l out :
    stable_sort_of leb l out -> stable_sort_of leb (filter P l) (filter P out).
  Proof.
    intros [H1 H2]. split; [apply StronglySorted_filter; exact H1|].
    intros x. rewrite !filter_filter.
    assert (E : forall m, filter (fun y => P y && eqv leb x y) m = filter P (filter (eqv leb x) m)).
    { intros m. rewrite filter_filter. apply filter_ext. intros; apply andb_comm. }
    rewrite !E, H2. reflexivity.
  Qed.

  Lemma stable_sort_sorted_id l out : stable_sort_of leb l out -> StronglySorted (leP leb) l -> out = l.
  Proof.
    intros H Hs. apply (stable_sort_unique leb leb_total l); [exact H|]. split; [exact Hs|reflexivity].
  Qed.

  (* sorting stably a list that is ordered by R2: ties are ordered by R2 *)
  Lemma stable_sort_lex (R2 : A -> A -> Prop) l out :
    stable_sort_of leb l out -> StronglySorted R2 l ->
    StronglySorted (fun x y => leb x y = true /\ (leb y x = true -> R2 x y)) out.
  Proof.
    intros [H1 H2] Hl.
    assert (Hs : forall x, StronglySorted R2 (filter (eqv leb x) out)).
    { intros x. rewrite H2. apply StronglySorted_filter. exact Hl. }
    clear H2 Hl l. induction out as [|a t IH]; [constructor|].
    inversion H1 as [|? ? H1' Hf]; subst. constructor.
    - apply IH; [exact H1'|]. intros x. specialize (Hs x). cbn [filter] in Hs.
      destruct (eqv leb x a); [inversion Hs; assumption|exact Hs].
    - rewrite Forall_forall in *. intros y Hy. split; [apply Hf; exact Hy|].
      intros Hya. specialize (Hs a). cbn [filter] in Hs.
      rewrite (eqv_refl leb leb_total) in Hs. inversion Hs as [|? ? _ Hfa]; subst.
      rewrite Forall_forall in Hfa. apply Hfa. apply filter_In. split; [exact Hy|].
      unfold eqv. rewrite (Hf y Hy), Hya. reflexivity.
  Qed.
End StableSub.

Definition det_leb := row_leb det_sorting.
Lemma det_leb_total x y : det_leb x y = true \/ det_leb y x = true.
Proof. apply row_leb_total. Qed.
Lemma det_leb_trans x y z : det_leb x y = true -> det_leb y z = true -> det_leb x z = true.
Proof. apply row_leb_trans. Qed.

Lemma det_leb_spec a b :
  det_leb a b = true <-> (d_score b < d_score a)%Z \/ (d_score a = d_score b /\ (d_iou b <= d_iou a)%Z).
Proof.
  unfold det_leb, det_sorting, row_leb.
  destruct (Z.eqb_spec (d_score a) (d_score b)); [|lia].
  destruct (Z.eqb_spec (d_iou a) (d_iou b)); lia.
Qed.

Lemma zzz_leb_total a b : zzz_leb a b = true \/ zzz_leb b a = true.
Proof. apply lex_leb_total. Qed.
Lemma zzz_leb_trans a b c : zzz_leb a b = true -> zzz_leb b c = true -> zzz_leb a c = true.
Proof. apply lex_leb_trans. Qed.
Lemma zzz_leb_antisym a b : zzz_leb a b = true -> zzz_leb b a = true -> a = b.
Proof.
  destruct a as [[a1 a2] a3], b as [[b1 b2] b3]. unfold zzz_leb. cbn [fst snd]. intros H1 H2.
  assert (E := lex_leb_antisym _ _ H1 H2). inversion E; reflexivity.
Qed.

(* ------------------------------------------------------------------ *)
(** * The ranked rows *)

(* SPEC: a row can represent its prediction: the prediction exists and either the
   row matches labels or no row of the prediction (in the table) does *)
Definition eligible (T : list drow) (r : drow) : Prop :=
  (0 <= d_pd r)%Z /\
  (label_match r = true \/
   forall r', In r' T -> d_pd r' = d_pd r -> label_match r' = false).

Definition eligibleb (T : list drow) (r : drow) : bool :=
  (0 <=? d_pd r)%Z &&
  (label_match r || negb (existsb (Z.eqb (d_pd r)) (map d_pd (filter label_match (filter (fun r => (0 <=? d_pd r)%Z) T))))).

Lemma eligibleb_spec T r : eligibleb T r = true <-> eligible T r.
Proof.
  unfold eligibleb, eligible. rewrite andb_true_iff, orb_true_iff, negb_true_iff, Z.leb_le.
  split.
  - intros [H0 H]; split; [exact H0|]. destruct H as [H|H]; [left; exact H|right].
    intros r' Hin E. destruct (label_match r') eqn:El; [|reflexivity].
    assert (Ht : existsb (Z.eqb (d_pd r)) (map d_pd (filter label_match (filter (fun r => (0 <=? d_pd r)%Z) T))) = true).
    { apply existsb_exists. exists (d_pd r'). split; [|apply Z.eqb_eq; auto].
      apply in_map. rewrite !filter_In. repeat split; auto. apply Z.leb_le. lia. }
    congruence.
  - intros [H0 H]; split; [exact H0|]. destruct H as [H|H]; [left; exact H|right].
    apply not_true_iff_false. intros Ht. apply existsb_exists in Ht. destruct Ht as (x & Hx & E).
    apply Z.eqb_eq in E. subst x. apply in_map_iff in Hx. destruct Hx as (r' & E & Hr').
    rewrite !filter_In in Hr'. destruct Hr' as ((Hin & _) & Hm). rewrite (H r' Hin E) in Hm. discriminate.
Qed.

Lemma rank_pairs_eq S :
  rank_pairs S = table_sort_by det_sorting (isort (key_leb pd_key) (firsts zzz_dec pd_key [] (filter (eligibleb S) S))).
Proof.
  unfold rank_pairs. rewrite filter_filter. reflexivity.
Qed.

Lemma eligible_perm T T' r : (forall x, In x T <-> In x T') -> eligible T r <-> eligible T' r.
Proof.
  intros H. unfold eligible. split; intros [A [B|B]]; split; auto; right; intros r' Hr'; apply B; apply H; exact Hr'.
Qed.

Lemma key_leb_total {A} (key : A -> Z * Z * Z) x y : key_leb key x y = true \/ key_leb key y x = true.
Proof. apply zzz_leb_total. Qed.
Lemma key_leb_trans {A} (key : A -> Z * Z * Z) x y z : key_leb key x y = true -> key_leb key y z = true -> key_leb key x z = true.
Proof. apply zzz_leb_trans. Qed.

Lemma rank_pairs_perm S :
  Permutation (firsts zzz_dec pd_key [] (filter (eligibleb S) S)) (rank_pairs S).
Proof.
  rewrite rank_pairs_eq. unfold table_sort_by.
  rewrite <- (isort_perm (row_leb det_sorting) (isort (key_leb pd_key) (firsts zzz_dec pd_key [] (filter (eligibleb S) S)))).
  apply isort_perm.
Qed.

Lemma rank_pairs_NoDup_keys S : NoDup (map pd_key (rank_pairs S)).
Proof.
  apply (Permutation_NoDup (Permutation_map pd_key (rank_pairs_perm S))). apply firsts_NoDup.
Qed.

(* order of the ranked rows: score, then IoU, then datum, prediction, label *)
Definition rank_lt (x y : drow) : Prop :=
  det_leb x y = true /\ (det_leb y x = true -> zzz_leb (pd_key x) (pd_key y) = true).

Lemma rank_pairs_sorted_full S : StronglySorted rank_lt (rank_pairs S).
Proof.
  rewrite rank_pairs_eq.
  apply (stable_sort_lex det_leb det_leb_total (fun x y => zzz_leb (pd_key x) (pd_key y) = true))
    with (l := isort (key_leb pd_key) (firsts zzz_dec pd_key [] (filter (eligibleb S) S))).
  - apply isort_stable; [apply det_leb_total|apply det_leb_trans].
  - apply (isort_sorted (key_leb pd_key) (key_leb_total pd_key) (key_leb_trans pd_key)).
Qed.

Lemma rank_pairs_sorted S : StronglySorted (leP det_leb) (rank_pairs S).
Proof.
  rewrite rank_pairs_eq. apply (isort_sorted det_leb det_leb_total det_leb_trans).
Qed.

Lemma in_sorted_table t r : In r (table_sort_by det_sorting t) <-> In r t.
Proof.
  split; intros H.
  - exact (Permutation_in r (Permutation_sym (isort_perm _ t)) H).
  - exact (Permutation_in r (isort_perm _ t) H).
Qed.

(* which rows are kept *)
Lemma rank_pairs_In t r :
  In r (rank_pairs (table_sort_by det_sorting t)) ->
  In r t /\ eligible t r /\
  forall r', In r' t -> eligible t r' -> pd_key r' = pd_key r -> det_leb r r' = true.
Proof.
  intros H. apply (Permutation_in r (Permutation_sym (rank_pairs_perm _))) in H.
  apply firsts_In in H. destruct H as (l1 & l2 & E & _ & Hn).
  assert (Hin : In r (filter (eligibleb (table_sort_by det_sorting t)) (table_sort_by det_sorting t))).
  { rewrite E. apply in_elt. }
  apply filter_In in Hin. destruct Hin as [Hin He]. apply eligibleb_spec in He.
  rewrite (eligible_perm _ t) in He by apply in_sorted_table. apply (in_sorted_table t r) in Hin.
  split; [exact Hin|]. split; [exact He|].
  intros r' Hr' He' Ek.
  assert (Hr2 : In r' (l1 ++ r :: l2)).
  { rewrite <- E. apply filter_In. split; [apply in_sorted_table; exact Hr'|].
    apply eligibleb_spec. apply (eligible_perm _ t); [apply in_sorted_table|exact He']. }
  apply in_app_iff in Hr2. destruct Hr2 as [Hr2|[<-|Hr2]].
  - exfalso. apply Hn. rewrite <- Ek. apply in_map. exact Hr2.
  - apply (leb_refl det_leb det_leb_total).
  - assert (Hs : StronglySorted (leP det_leb) (l1 ++ r :: l2)).
    { rewrite <- E. apply StronglySorted_filter. apply (isort_sorted det_leb det_leb_total det_leb_trans). }
    apply StronglySorted_app in Hs. destruct Hs as (_ & Hs & _). inversion Hs as [|? ? _ Hf]; subst.
    rewrite Forall_forall in Hf. apply Hf. exact Hr2.
Qed.

Lemma rank_pairs_cover t r : In r t -> eligible t r ->
  exists r0, In r0 (rank_pairs (table_sort_by det_sorting t)) /\ pd_key r0 = pd_key r.
Proof.
  intros Hin He.
  assert (Hf : In r (filter (eligibleb (table_sort_by det_sorting t)) (table_sort_by det_sorting t))).
  { apply filter_In. split; [apply in_sorted_table; exact Hin|]. apply eligibleb_spec.
    apply (eligible_perm _ t); [apply in_sorted_table|exact He]. }
  apply in_split in Hf. destruct Hf as (l1 & l2 & E).
  destruct (firsts_cover zzz_dec pd_key l1 r l2) as (b & Hb & Ek & _). rewrite <- E in Hb.
  exists b. split; [|exact Ek]. exact (Permutation_in b (rank_pairs_perm _) Hb).
Qed.

(* ------------------------------------------------------------------ *)
(** * Boundaries *)

Fixpoint zmaxl (x : Z) (l : list Z) : Z := match l with [] => x | y :: t => zmaxl (Z.max x y) t end.

Lemma zmaxl_ge x l : (x <= zmaxl x l)%Z.
Proof. revert x. induction l as [|y t IH]; intros x; simpl; [lia|]. specialize (IH (Z.max x y)). lia. Qed.

Lemma zmaxl_In x l y : In y l -> (y <= zmaxl x l)%Z.
Proof.
  revert x. induction l as [|z t IH]; intros x; [intros []|]. intros [<-|H]; simpl.
  - pose proof (zmaxl_ge (Z.max x z) t). lia.
  - apply IH; exact H.
Qed.

Lemma zmaxl_lt x l t : (zmaxl x l < t)%Z <-> (x < t)%Z /\ (forall y, In y l -> (y < t)%Z).
Proof.
  revert x. induction l as [|z u IH]; intros x; simpl.
  - split; [intros H; split; [exact H|intros y []]|tauto].
  - rewrite IH. split.
    + intros [H1 H2]. split; [lia|]. intros y [<-|H]; [lia|auto].
    + intros [H1 H2]. assert (z < t)%Z by auto. split; [lia|auto].
Qed.

Lemma zmaxl_snoc x l y : zmaxl x (l ++ [y]) = Z.max (zmaxl x l) y.
Proof. revert x. induction l as [|z t IH]; intros x; simpl; [reflexivity|apply IH]. Qed.

Section Boundaries.
  Variable unit : Z.
  Hypothesis unit_pos : (0 <= unit)%Z.

  Lemma later_boundaries_length rm last l : List.length (later_boundaries unit rm last l) = List.length l.
  Proof.
    revert rm last. induction l as [|x t IH]; intros rm last; simpl; [reflexivity|].
    destruct (rm <? Z.max rm x)%Z; simpl; rewrite IH; reflexivity.
  Qed.

  Lemma gt_boundaries_length l : List.length (gt_boundaries unit l) = List.length l.
  Proof.
    destruct l as [|x [|y t]]; [reflexivity|reflexivity|].
    cbn [gt_boundaries List.length]. rewrite later_boundaries_length. reflexivity.
  Qed.

  Lemma later_boundaries_spec rm l1 x l2 :
    nth_error (later_boundaries unit rm rm (l1 ++ x :: l2)) (List.length l1)
    = Some (if (zmaxl rm l1 <? x)%Z then zmaxl rm l1 else (2 * unit)%Z).
  Proof.
    revert rm. induction l1 as [|y t IH]; intros rm.
    - cbn [app List.length later_boundaries zmaxl].
      destruct (Z.ltb_spec rm (Z.max rm x)) as [H|H]; destruct (Z.ltb_spec rm x) as [H'|H']; try lia; reflexivity.
    - cbn [app List.length later_boundaries zmaxl].
      destruct (Z.ltb_spec rm (Z.max rm y)) as [H|H]; cbn [nth_error].
      + replace y with (Z.max rm y) at 2 by lia. apply IH.
      + replace rm with (Z.max rm y) at 2 by lia. apply IH.
  Qed.

  (* the boundary of the row with IoU x preceded by rows with IoUs l1 *)
  Definition boundary_of (l1 : list Z) (x : Z) : Z :=
    match l1 with
    | [] => 0%Z
    | y :: t => if (zmaxl y t <? x)%Z then zmaxl y t else (2 * unit)%Z
    end.

  Lemma gt_boundaries_spec l1 x l2 :
    nth_error (gt_boundaries unit (l1 ++ x :: l2)) (List.length l1) = Some (boundary_of l1 x).
  Proof.
    destruct l1 as [|y t].
    - destruct l2; reflexivity.
    - cbn [app]. destruct (t ++ x :: l2) as [|a b] eqn:E; [destruct t; discriminate|].
      cbn [gt_boundaries List.length nth_error]. rewrite <- E. apply later_boundaries_spec.
  Qed.

  Lemma boundary_of_spec l1 x t : (0 < t)%Z -> (t <= x)%Z -> (x <= 2 * unit)%Z ->
    (boundary_of l1 x < t)%Z <-> forall y, In y l1 -> (y < t)%Z.
  Proof.
    intros Ht Hx Hu. destruct l1 as [|y u]; cbn [boundary_of].
    - split; [intros _ y []|intros _; exact Ht].
    - destruct (Z.ltb_spec (zmaxl y u) x) as [H|H].
      + rewrite zmaxl_lt. split.
        * intros [H1 H2] z [<-|Hz]; auto.
        * intros Hz. split; [apply Hz; left; reflexivity|intros z Hz2; apply Hz; right; exact Hz2].
      + split; [intros Hc; exfalso; lia|]. intros Hz. exfalso.
        assert (zmaxl y u < t)%Z by (apply zmaxl_lt; split; [apply Hz; left; reflexivity|intros z Hz2; apply Hz; right; exact Hz2]). lia.
  Qed.

  (* scatter *)
  Lemma scatter_length {V} mask (vals out : list V) : List.length (scatter mask vals out) = List.length out.
  Proof.
    revert vals out. induction mask as [|b m IH]; intros vals [|o out]; simpl; try reflexivity.
    destruct b, vals; simpl; rewrite IH; reflexivity.
  Qed.

  Lemma scatter_nth {V} : forall mask (vals out : list V) i,
    List.length mask = List.length out -> List.length vals = countb (fun b => b) mask ->
    nth_error (scatter mask vals out) i =
    match nth_error mask i with
    | Some true => nth_error vals (countb (fun b => b) (firstn i mask))
    | _ => nth_error out i
    end.
  Proof.
    induction mask as [|b m IH]; intros vals [|o out] i Hl Hv; try discriminate.
    - simpl. destruct i; reflexivity.
    - cbn [scatter]. destruct b.
      + unfold countb in Hv. cbn [filter List.length] in Hv. destruct vals as [|v vals]; [discriminate|].
        destruct i as [|i]; [reflexivity|]. cbn [nth_error firstn]. rewrite IH; [|auto|].
        * destruct (nth_error m i) as [[]|]; reflexivity.
        * unfold countb. simpl in Hv. lia.
      + destruct i as [|i].
        * destruct vals; reflexivity.
        * cbn [nth_error firstn]. rewrite IH; [|auto|exact Hv].
          destruct (nth_error m i) as [[]|]; reflexivity.
  Qed.

  Lemma gt_mask_spec k r : gt_mask k r = true <-> gt_key r = k /\ d_gl r = d_pl r.
  Proof.
    unfold gt_mask. destruct (zzz_dec (gt_key r) k); rewrite andb_true_iff; rewrite Z.eqb_eq; intuition discriminate.
  Qed.

  Lemma countb_id_map {A} (f : A -> bool) l : countb (fun b => b) (map f l) = countb f l.
  Proof. apply (countb_map f (fun b => b) l). Qed.

  Definition scatter_gt (R : list drow) (k : Z * Z * Z) (out : list Z) : list Z :=
    scatter (map (gt_mask k) R) (gt_boundaries unit (map d_iou (filter (gt_mask k) R))) out.

  Lemma scatter_gt_nth R k out i r : List.length out = List.length R -> nth_error R i = Some r ->
    nth_error (scatter_gt R k out) i =
    if gt_mask k r then Some (boundary_of (map d_iou (filter (gt_mask k) (firstn i R))) (d_iou r))
    else nth_error out i.
  Proof.
    intros Hl Hi. unfold scatter_gt. rewrite scatter_nth.
    - rewrite nth_error_map, Hi. cbn [option_map]. destruct (gt_mask k r) eqn:Em; [|reflexivity].
      rewrite firstn_map, countb_id_map.
      assert (Es : R = firstn i R ++ r :: skipn (S i) R).
      { clear -Hi. revert i Hi. induction R as [|a t IH]; intros [|i] Hi; try discriminate; simpl in *.
        - inversion Hi; reflexivity.
        - f_equal. apply IH. exact Hi. }
      assert (Ef : map d_iou (filter (gt_mask k) R)
                 = map d_iou (filter (gt_mask k) (firstn i R)) ++ d_iou r :: map d_iou (filter (gt_mask k) (skipn (S i) R))).
      { rewrite Es at 1. rewrite filter_app. cbn [filter]. rewrite Em. rewrite map_app. reflexivity. }
      rewrite Ef. unfold countb.
      rewrite <- (map_length d_iou (filter (gt_mask k) (firstn i R))). apply gt_boundaries_spec.
    - rewrite map_length. auto.
    - rewrite gt_boundaries_length, map_length, countb_id_map. reflexivity.
  Qed.

  Lemma scatter_gt_length R k out : List.length (scatter_gt R k out) = List.length out.
  Proof. apply scatter_length. Qed.

  Lemma fold_scatter_length R ks out :
    List.length (fold_left (fun o k => scatter_gt R k o) ks out) = List.length out.
  Proof.
    revert out. induction ks as [|k t IH]; intros out; simpl; [reflexivity|].
    rewrite IH. apply scatter_gt_length.
  Qed.

  Lemma fold_scatter_nth R ks out i r : List.length out = List.length R -> nth_error R i = Some r ->
    nth_error (fold_left (fun o k => scatter_gt R k o) ks out) i =
    if existsb (fun k => gt_mask k r) ks
    then Some (boundary_of (map d_iou (filter (gt_mask (gt_key r)) (firstn i R))) (d_iou r))
    else nth_error out i.
  Proof.
    revert out. induction ks as [|k t IH]; intros out Hl Hi; simpl; [reflexivity|].
    rewrite IH; [|rewrite scatter_gt_length; exact Hl|exact Hi].
    rewrite (scatter_gt_nth R k out i r Hl Hi).
    destruct (gt_mask k r) eqn:Em; simpl; [|reflexivity].
    apply gt_mask_spec in Em. destruct Em as [<- _].
    destruct (existsb _ t); reflexivity.
  Qed.

  Lemma boundaries_length R : List.length (ranking_boundaries unit R) = List.length R.
  Proof.
    unfold ranking_boundaries. fold (scatter_gt R).
    change (List.length (fold_left (fun o k => scatter_gt R k o)
      (isort zzz_leb (dkeys zzz_dec gt_key (fun r => (0 <=? d_gt r)%Z) R)) (map (fun _ => (2 * unit)%Z) R)) = List.length R).
    rewrite fold_scatter_length. apply map_length.
  Qed.

  Lemma boundaries_nth R i r : nth_error R i = Some r ->
    nth_error (ranking_boundaries unit R) i =
    Some (if (0 <=? d_gt r)%Z && (d_gl r =? d_pl r)%Z
          then boundary_of (map d_iou (filter (gt_mask (gt_key r)) (firstn i R))) (d_iou r)
          else (2 * unit)%Z).
  Proof.
    intros Hi.
    change (nth_error (fold_left (fun o k => scatter_gt R k o)
      (isort zzz_leb (dkeys zzz_dec gt_key (fun r => (0 <=? d_gt r)%Z) R)) (map (fun _ => (2 * unit)%Z) R)) i =
      Some (if (0 <=? d_gt r)%Z && (d_gl r =? d_pl r)%Z
          then boundary_of (map d_iou (filter (gt_mask (gt_key r)) (firstn i R))) (d_iou r)
          else (2 * unit)%Z)).
    rewrite (fold_scatter_nth R _ _ i r); [|apply map_length|exact Hi].
    rewrite nth_error_map, Hi. cbn [option_map].
    assert (E : existsb (fun k => gt_mask k r) (isort zzz_leb (dkeys zzz_dec gt_key (fun r => (0 <=? d_gt r)%Z) R))
              = (0 <=? d_gt r)%Z && (d_gl r =? d_pl r)%Z).
    { apply eq_true_iff_eq. rewrite existsb_exists, andb_true_iff, Z.eqb_eq. split.
      - intros (k & Hk & Hm). apply gt_mask_spec in Hm. destruct Hm as [Hm He]. split; [|exact He].
        apply (Permutation_in k (Permutation_sym (isort_perm zzz_leb _))) in Hk.
        apply dkeys_In in Hk. destruct Hk as (a & _ & Ha & Hka). rewrite <- Hka in Hm.
        unfold gt_key in Hm. inversion Hm. congruence.
      - intros [Hg He]. exists (gt_key r). split; [|apply gt_mask_spec; auto].
        apply (Permutation_in _ (isort_perm zzz_leb _)). apply dkeys_In. exists r.
        split; [apply (nth_error_In _ _ Hi)|auto]. }
    rewrite E. destruct (_ && _); reflexivity.
  Qed.
End Boundaries.

Lemma map2_nth {A B C} (f : A -> B -> C) : forall l1 l2 i, List.length l1 = List.length l2 ->
  nth_error (map2 f l1 l2) i =
  match nth_error l1 i, nth_error l2 i with Some a, Some b => Some (f a b) | _, _ => None end.
Proof.
  induction l1 as [|a t IH]; intros [|b u] i Hl; try discriminate.
  - destruct i; reflexivity.
  - destruct i as [|i]; [reflexivity|]. simpl. apply IH. injection Hl; auto.
Qed.

Lemma map2_map_l {A B C D} (f : A -> B -> C) (g : C -> D) (h : A -> D) :
  (forall a b, g (f a b) = h a) -> forall l1 l2, List.length l1 = List.length l2 ->
  map g (map2 f l1 l2) = map h l1.
Proof.
  intros H. induction l1 as [|a t IH]; intros [|b u] Hl; try discriminate; [reflexivity|].
  cbn [map2 map]. rewrite H, IH by (injection Hl; auto). reflexivity.
Qed.

(* everything but the boundary column *)
Definition strip (r : drow) : drow := set_prev r 0.

Lemma set_prev_strip r b : strip (set_prev r b) = strip r.
Proof. reflexivity. Qed.

Lemma rank_table_strip unit t :
  map strip (rank_table unit t) = map strip (rank_pairs (table_sort_by det_sorting t)).
Proof.
  unfold rank_table. apply map2_map_l; [reflexivity|]. symmetry. apply boundaries_length.
Qed.

Lemma rank_table_map {V} (g : drow -> V) unit t : (forall r b, g (set_prev r b) = g r) ->
  map g (rank_table unit t) = map g (rank_pairs (table_sort_by det_sorting t)).
Proof.
  intros H. unfold rank_table. apply map2_map_l; [exact H|]. symmetry. apply boundaries_length.
Qed.

Lemma rank_table_length unit t : List.length (rank_table unit t) = List.length (rank_pairs (table_sort_by det_sorting t)).
Proof. rewrite <- (map_length strip), rank_table_strip, map_length. reflexivity. Qed.
