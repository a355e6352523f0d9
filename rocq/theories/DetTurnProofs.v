(* The matching of an image: it is the only one that takes overlapping pairs in turn. *)
From Verif Require Import Prelude Counting CacheModel ClsModel DetModel DetSpec DetTurnSpec DetConfOrder.
From Coq Require Import String Lia.
Local Open Scope nat_scope.
Local Open Scope list_scope.

Lemma turn_total d x y : turn_leb d x y = true \/ turn_leb d y x = true.
Proof. apply lex_leb_total. Qed.
Lemma turn_trans d x y z : turn_leb d x y = true -> turn_leb d y z = true -> turn_leb d x z = true.
Proof. apply lex_leb_trans. Qed.
Lemma turn_antisym d x y : turn_leb d x y = true -> turn_leb d y x = true -> x = y.
Proof.
  intros A B. assert (E := lex_leb_antisym _ _ A B). unfold turn in E. injection E as _ _ E1 E2. destruct x, y. cbn in *. f_equal; lia.
Qed.
Lemma clash_refl x : clash x x = true.
Proof. unfold clash. rewrite Nat.eqb_refl. reflexivity. Qed.
Lemma clash_iff p g p' g' : clash (p, g) (p', g') = true <-> p = p' \/ g = g'.
Proof. unfold clash. cbn. rewrite orb_true_iff, !Nat.eqb_eq. tauto. Qed.

Section Take.
  Variable leb : nat * nat -> nat * nat -> bool.
  Hypothesis leb_refl : forall x, leb x x = true.

  Lemma take_incl l x : In x (fold_left take l []) -> In x l.
  Proof.
    revert x. induction l as [|a l IH] using rev_ind; intros x; [intros []|]. rewrite fold_left_app. cbn. unfold take at 1.
    destruct (existsb (clash a) (fold_left take l [])); intros H; [apply in_or_app; left; apply IH; exact H|].
    apply in_app_iff in H. apply in_app_iff. destruct H as [H|H]; [left; apply IH; exact H|right; exact H].
  Qed.
  Lemma take_clash l : NoDup l -> forall x y, In x (fold_left take l []) -> In y (fold_left take l []) -> clash x y = true -> x = y.
  Proof.
    induction l as [|a l IH] using rev_ind; intros Hn x y; [intros []|]. apply NoDup_remove in Hn. rewrite app_nil_r in Hn. destruct Hn as [Hn Ha].
    rewrite fold_left_app. cbn. unfold take at 1 3. destruct (existsb (clash a) (fold_left take l [])) eqn:E; [apply IH; exact Hn|].
    assert (No : forall z, In z (fold_left take l []) -> clash a z = false).
    { intros z Hz. destruct (clash a z) eqn:C; [|reflexivity]. assert (existsb (clash a) (fold_left take l []) = true) by (apply existsb_exists; eauto). congruence. }
    rewrite !in_app_iff. intros [Hx|[<-|[]]] [Hy|[<-|[]]] C; try reflexivity.
    - apply IH; assumption.
    - specialize (No x Hx). unfold clash in *. rewrite (Nat.eqb_sym (fst a)), (Nat.eqb_sym (snd a)) in No. congruence.
    - rewrite (No y Hy) in C. discriminate.
  Qed.
  Lemma take_reason l : StronglySorted (fun x y => leb x y = true) l -> forall x, In x l ->
    In x (fold_left take l []) \/ exists y, In y (fold_left take l []) /\ clash x y = true /\ leb y x = true.
  Proof.
    induction l as [|a l IH] using rev_ind; intros Hs x; [intros []|]. apply StronglySorted_app in Hs. destruct Hs as (Hs & _ & Hab).
    rewrite fold_left_app. cbn. unfold take at 1 3.
    assert (Keep : In x l -> In x (fold_left take l []) \/ exists y, In y (fold_left take l []) /\ clash x y = true /\ leb y x = true) by (apply IH; exact Hs).
    destruct (existsb (clash a) (fold_left take l [])) eqn:E; rewrite in_app_iff; intros [Hx|[<-|[]]].
    - apply Keep. exact Hx.
    - right. apply existsb_exists in E. destruct E as (y & Hy & C). exists y. split; [exact Hy|]. split; [exact C|].
      apply Hab; [apply take_incl; exact Hy|left; reflexivity].
    - destruct (Keep Hx) as [H|(y & Hy & H)]; [left; apply in_or_app; left; exact H|right; exists y; split; [apply in_or_app; left; exact Hy|exact H]].
    - left. apply in_or_app. right. left. reflexivity.
  Qed.
End Take.

Lemma candidates_NoDup eps d : NoDup (candidates eps d).
Proof.
  apply NoDup_filter. generalize (seq_NoDup (List.length (t_pds d)) 0), (seq_NoDup (List.length (t_gts d)) 0).
  generalize (seq 0 (List.length (t_pds d))), (seq 0 (List.length (t_gts d))). clear. intros l1 l2 H1 H2.
  induction H1 as [|a l Ha H1 IH]; [constructor|]. cbn. apply NoDup_app_disjoint; [|exact IH|].
  - clear -H2. induction H2 as [|b l2 Hb H2 IH]; cbn; constructor; auto. intros H. apply in_map_iff in H. destruct H as (x & E & Hx). injection E as <-. contradiction.
  - intros [x y] Hx Hy. apply in_map_iff in Hx. destruct Hx as (z & E & _). injection E as <- _. apply in_prod_iff in Hy. tauto.
Qed.
Lemma candidate_iff eps d p g : In (p, g) (candidates eps d) <->
  exists pa, nth_error (t_pds d) p = Some pa /\ a_scores pa <> [] /\ g < List.length (t_gts d) /\ (eps <= t_iou d p g)%Z.
Proof.
  unfold candidates. rewrite filter_In, in_prod_iff, !in_seq. cbn [fst snd]. unfold is_scored. rewrite andb_true_iff. split.
  - intros [[_ [_ Hg]] [Hs Ho]]. destruct (nth_error (t_pds d) p) as [pa|]; [|discriminate]. exists pa. split; [reflexivity|].
    split; [intros E; rewrite E in Hs; discriminate|]. split; [lia|]. apply Z.leb_le. exact Ho.
  - intros (pa & Hp & Hs & Hg & Ho). rewrite Hp. assert (p < List.length (t_pds d)) by (apply nth_error_Some; congruence).
    split; [lia|]. split; [|apply Z.leb_le; exact Ho]. destruct (a_scores pa); [congruence|reflexivity].
Qed.

Lemma matching_In eps d p g : matching eps d p g = true <-> In (p, g) (matched_pairs eps d).
Proof.
  unfold matching. rewrite existsb_exists. split.
  - intros ([a b] & H & E). cbn in E. rewrite andb_true_iff, !Nat.eqb_eq in E. destruct E as [-> ->]. exact H.
  - intros H. exists (p, g). cbn. rewrite !Nat.eqb_refl. auto.
Qed.

Theorem matching_in_turn eps d : in_turn eps d (matching eps d).
Proof.
  set (l := isort (turn_leb d) (candidates eps d)).
  assert (Hn : NoDup l) by (eapply Permutation_NoDup; [apply isort_perm|apply candidates_NoDup]).
  assert (Hs : StronglySorted (fun x y => turn_leb d x y = true) l) by (apply isort_sorted; [apply turn_total|apply turn_trans]).
  assert (Hi : forall x, In x l <-> In x (candidates eps d)) by (intros x; split; apply Permutation_in; [symmetry|]; apply isort_perm).
  constructor.
  - intros p g H. apply matching_In in H. apply Hi, (take_incl l). exact H.
  - intros p g g' H H'. apply matching_In in H, H'. assert (E : (p, g) = (p, g')) by (apply (take_clash l Hn); auto; apply clash_iff; auto). congruence.
  - intros p p' g H H'. apply matching_In in H, H'. assert (E : (p, g) = (p', g)) by (apply (take_clash l Hn); auto; apply clash_iff; auto). congruence.
  - intros p g H. apply Hi in H. destruct (take_reason (turn_leb d) l Hs (p, g) H) as [Ht|([p' g'] & Hy & C & Le)]; [left; apply matching_In; exact Ht|].
    destruct (Nat.eq_dec p p') as [Ep|Np]; [destruct (Nat.eq_dec g g') as [Eg|Ng]|].
    + left. apply matching_In. subst. exact Hy.
    + right. exists p', g'. split; [apply matching_In; exact Hy|]. split; [auto|]. split; [exact Le|congruence].
    + right. exists p', g'. apply clash_iff in C. split; [apply matching_In; exact Hy|]. split; [destruct C; auto|]. split; [exact Le|congruence].
Qed.

(* no other matching takes the pairs in turn *)
Theorem in_turn_unique eps d M M' : in_turn eps d M -> in_turn eps d M' -> forall p g, M p g = M' p g.
Proof.
  intros B B'. set (before := fun y x => turn_leb d y x && negb (turn_leb d x y)). set (depth := fun x => countb (fun y => before y x) (candidates eps d)).
  assert (Bef : forall y x, turn_leb d y x = true -> y <> x -> before y x = true).
  { intros y x H N. unfold before. rewrite H. destruct (turn_leb d x y) eqn:E; [|reflexivity]. exfalso. apply N, (turn_antisym d); assumption. }
  assert (Dl : forall y x, In y (candidates eps d) -> before y x = true -> depth y < depth x).
  { intros y x Hy H. apply (countb_lt _ _ _ y); [|exact Hy| |exact H].
    - intros z _ Hz. unfold before in *. rewrite andb_true_iff, negb_true_iff in *. destruct H as [H1 H2], Hz as [Z1 Z2].
      split; [apply (turn_trans d _ y); assumption|]. destruct (turn_leb d x z) eqn:E; [|reflexivity]. rewrite (turn_trans d x z y E Z1) in H2. discriminate.
    - unfold before. destruct (turn_leb d y y); reflexivity. }
  assert (Iff : forall M, in_turn eps d M -> forall p g, In (p, g) (candidates eps d) ->
     (M p g = true <-> forall p' g', In (p', g') (candidates eps d) -> before (p', g') (p, g) = true -> p' = p \/ g' = g -> M p' g' = false)).
  { clear M M' B B'. intros M B p g Hc. split.
    - intros H p' g' _ Hb Hor. destruct (M p' g') eqn:E; [|reflexivity]. exfalso.
      assert (X : (p', g') = (p, g)). { destruct Hor as [->| ->]; f_equal; [apply (it_one_gt _ _ _ B p)|apply (it_one_pd _ _ _ B p' p g)]; assumption. }
      rewrite X in Hb. unfold before in Hb. destruct (turn_leb d (p, g) (p, g)); discriminate.
    - intros H. destruct (it_taken _ _ _ B p g Hc) as [T|(p' & g' & T & Hor & Le & Ne)]; [exact T|]. exfalso.
      rewrite (H p' g' (it_pairs _ _ _ B p' g' T) (Bef _ _ Le Ne) Hor) in T. discriminate. }
  assert (Ind : forall n p g, depth (p, g) < n -> M p g = M' p g).
  { induction n as [|n IH]; intros p g Hn; [lia|].
    assert (Both : In (p, g) (candidates eps d) -> (M p g = true <-> M' p g = true)).
    { intros Hc. rewrite (Iff M B p g Hc), (Iff M' B' p g Hc). split; intros H p' g' Hc' Hb Hor; [rewrite <- IH|rewrite IH]; try (apply H; assumption);
      assert (X := Dl _ _ Hc' Hb); lia. }
    apply eq_true_iff_eq. split; intros H; apply Both; try exact H; [apply (it_pairs _ _ _ B)|apply (it_pairs _ _ _ B')]; exact H. }
  intros p g. apply (Ind (S (depth (p, g)))). lia.
Qed.
