(* compute_intermediates counts the pixels of every pair of labels. *)
From Verif Require Import Prelude Counting CacheModel CacheSpec ClsModel ClsSpec ClsLabelProofs FlowModel DetFlowModel SegModel SegSpec.
From Coq Require Import QArith String.
Local Open Scope nat_scope.
Local Open Scope list_scope.

(* ------------------------------------------------------------------ masks *)
Lemma nth_default_len {A} (l : list A) i d : List.length l <= i -> nth i l d = d.
Proof. apply nth_overflow. Qed.

Lemma nth_band a b i : List.length a = List.length b -> nth i (band a b) false = nth i a false && nth i b false.
Proof.
  unfold band. revert b i. induction a as [|x a IH]; intros [|y b] i H; cbn in H; try discriminate.
  - destruct i; reflexivity.
  - destruct i; [reflexivity|]. cbn. apply IH. lia.
Qed.
Lemma nth_bor a b i : List.length a = List.length b -> nth i (bor a b) false = nth i a false || nth i b false.
Proof.
  unfold bor. revert b i. induction a as [|x a IH]; intros [|y b] i H; cbn in H; try discriminate.
  - destruct i; reflexivity.
  - destruct i; [reflexivity|]. cbn. apply IH. lia.
Qed.
Lemma nth_bclear a b i : List.length a = List.length b -> nth i (bclear a b) false = nth i a false && negb (nth i b false).
Proof.
  unfold bclear. revert b i. induction a as [|x a IH]; intros [|y b] i H; cbn in H; try discriminate.
  - destruct i; reflexivity.
  - destruct i; [reflexivity|]. cbn. apply IH. lia.
Qed.
Lemma band_length a b : List.length a = List.length b -> List.length (band a b) = List.length a.
Proof. intros H. unfold band. rewrite map_length, combine_length. lia. Qed.
Lemma bor_length a b : List.length a = List.length b -> List.length (bor a b) = List.length a.
Proof. intros H. unfold bor. rewrite map_length, combine_length. lia. Qed.
Lemma bclear_length a b : List.length a = List.length b -> List.length (bclear a b) = List.length a.
Proof. intros H. unfold bclear. rewrite map_length, combine_length. lia. Qed.
Lemma bany_spec a : bany a = true <-> exists i, nth i a false = true.
Proof.
  unfold bany. rewrite existsb_exists. split.
  - intros (x & Hx & ->). apply In_nth with (d := false) in Hx. destruct Hx as (i & _ & E). exists i. exact E.
  - intros (i & E). exists true. split; [|reflexivity]. rewrite <- E. apply nth_In.
    destruct (Nat.lt_ge_cases i (List.length a)) as [H|H]; [exact H|]. rewrite nth_overflow in E by exact H. discriminate.
Qed.
Lemma nth_repeat_false i n : nth i (repeat false n) false = false.
Proof. revert i. induction n; destruct i; cbn; auto. Qed.

Lemma countb_seq_shift (f : nat -> bool) n s : countb f (seq (S s) n) = countb (fun i => f (S i)) (seq s n).
Proof. rewrite <- seq_shift, countb_map. reflexivity. Qed.
Lemma countb_nth a : countb (fun b : bool => b) a = countb (fun i => nth i a false) (seq 0 (List.length a)).
Proof.
  induction a as [|x a IH]; [reflexivity|]. cbn [List.length seq].
  unfold countb at 2. cbn [filter]. change (nth 0 (x :: a) false) with x.
  transitivity ((if x then 1 else 0) + countb (fun i => nth i (x :: a) false) (seq 1 (List.length a))).
  - rewrite countb_seq_shift. cbn. rewrite <- IH. unfold countb. cbn. destruct x; reflexivity.
  - unfold countb. destruct x; reflexivity.
Qed.
Lemma bsum_seq a N : List.length a = N -> bsum a = Z.of_nat (countb (fun i => nth i a false) (seq 0 N)).
Proof. intros <-. unfold bsum. rewrite countb_nth. reflexivity. Qed.

(* ------------------------------------------------------------------ assignments *)
Notation upd := ((nat * nat) * Z)%type.
Definition apply_upds (m : nat -> nat -> Z) (us : list upd) : nat -> nat -> Z :=
  fold_left (fun m u => mset m (fst (fst u)) (snd (fst u)) (snd u)) us m.

Lemma apply_upds_app m a b : apply_upds m (a ++ b) = apply_upds (apply_upds m a) b.
Proof. unfold apply_upds. apply fold_left_app. Qed.
Lemma apply_upds_out us : forall m i j, ~ In (i, j) (map fst us) -> apply_upds m us i j = m i j.
Proof.
  induction us as [|[[i' j'] v] us IH]; intros m i j H; [reflexivity|].
  cbn [apply_upds fold_left]. change (apply_upds (mset m i' j' v) us i j = m i j). rewrite IH.
  - unfold mset. destruct (Nat.eqb i' i && Nat.eqb j' j) eqn:E; [|reflexivity].
    exfalso. apply H. left. cbn. f_equal; lia.
  - intros X. apply H. right. exact X.
Qed.
Lemma apply_upds_in us : forall m i j v, NoDup (map fst us) -> In ((i, j), v) us -> apply_upds m us i j = u64 v.
Proof.
  induction us as [|[[i' j'] w] us IH]; intros m i j v Hn Hin; [destruct Hin|].
  cbn [map fst] in Hn. inversion Hn as [|? ? Hn1 Hn2]; subst. destruct Hin as [E|Hin].
  - injection E as <- <- <-. change (apply_upds (mset m i' j' w) us i' j' = u64 w).
    rewrite apply_upds_out by exact Hn1. unfold mset. rewrite !Nat.eqb_refl. reflexivity.
  - change (apply_upds (mset m i' j' w) us i j = u64 v). apply IH; assumption.
Qed.

Definition inter_upds (gs ps : list (nat * list bool)) : list upd :=
  flat_map (fun gl => map (fun pl => ((S (fst gl), S (fst pl)), bsum (band (snd gl) (snd pl)))) ps) gs.
Lemma inter_fold gs ps m :
  fold_left (fun m gl => fold_left
     (fun m pl => mset m (S (fst gl)) (S (fst pl)) (bsum (band (snd gl) (snd pl)))) ps m) gs m
  = apply_upds m (inter_upds gs ps).
Proof.
  revert m. induction gs as [|g gs IH]; intros m; [reflexivity|]. cbn [fold_left inter_upds flat_map].
  rewrite apply_upds_app. rewrite IH. unfold inter_upds at 1. f_equal.
  clear. revert m. induction ps as [|p ps IH]; intros m; [reflexivity|]. cbn. rewrite IH. reflexivity.
Qed.
Definition pd_upds (gts : list (list bool)) (ps : list (nat * list bool)) : list upd :=
  map (fun pl => ((0, S (fst pl)), (bsum (snd pl) - zsum (map (fun g => bsum (band g (snd pl))) gts))%Z)) ps.
Definition gt_upds (pds : list (list bool)) (gs : list (nat * list bool)) : list upd :=
  map (fun gl => ((S (fst gl), 0), (bsum (snd gl) - zsum (map (fun p => bsum (band (snd gl) p)) pds))%Z)) gs.
Lemma pd_fold gts ps m :
  fold_left (fun m pl => mset m 0 (S (fst pl)) (bsum (snd pl) - zsum (map (fun g => bsum (band g (snd pl))) gts))%Z) ps m
  = apply_upds m (pd_upds gts ps).
Proof. revert m. induction ps as [|p ps IH]; intros m; [reflexivity|]. cbn. rewrite IH. reflexivity. Qed.
Lemma gt_fold pds gs m :
  fold_left (fun m gl => mset m (S (fst gl)) 0 (bsum (snd gl) - zsum (map (fun p => bsum (band (snd gl) p)) pds))%Z) gs m
  = apply_upds m (gt_upds pds gs).
Proof. revert m. induction gs as [|g gs IH]; intros m; [reflexivity|]. cbn. rewrite IH. reflexivity. Qed.

Definition all_upds (N : nat) (gts pds : list (list bool)) (gls pls : list nat) : list upd :=
  ((0, 0), bsum (map negb (bor (any_axis0 N gts) (any_axis0 N pds))))
  :: inter_upds (combine gls gts) (combine pls pds)
  ++ pd_upds gts (combine pls pds) ++ gt_upds pds (combine gls gts).
Lemma intermediates_upds N gts pds gls pls :
  compute_intermediates N gts pds gls pls = apply_upds mzero (all_upds N gts pds gls pls).
Proof.
  unfold compute_intermediates, all_upds. cbv zeta. rewrite inter_fold, pd_fold, gt_fold.
  unfold apply_upds at 4. cbn [fold_left fst snd]. fold (apply_upds (mset mzero 0 0 (bsum (map negb (bor (any_axis0 N gts) (any_axis0 N pds)))))
     (inter_upds (combine gls gts) (combine pls pds) ++ pd_upds gts (combine pls pds) ++ gt_upds pds (combine gls gts))).
  rewrite !apply_upds_app. reflexivity.
Qed.

Lemma NoDup_map_inj {A B} (f : A -> B) l : (forall x y, In x l -> In y l -> f x = f y -> x = y) -> NoDup l -> NoDup (map f l).
Proof.
  intros H Hn. induction Hn as [|x l Hx Hn IH]; cbn; constructor.
  - rewrite in_map_iff. intros (y & E & Hy). apply Hx. rewrite (H x y); auto; [left; auto|right; auto].
  - apply IH. intros; apply H; auto; right; auto.
Qed.

Lemma all_upds_NoDup N gts pds gls pls :
  NoDup (map fst (combine gls gts)) -> NoDup (map fst (combine pls pds)) ->
  NoDup (map fst (all_upds N gts pds gls pls)).
Proof.
  intros Hg Hp. unfold all_upds. cbn [map]. rewrite !map_app.
  set (gs := combine gls gts) in *. set (ps := combine pls pds) in *.
  assert (Ep : map fst (pd_upds gts ps) = map (fun k => (0, S k)) (map fst ps)).
  { unfold pd_upds. rewrite !map_map. apply map_ext. reflexivity. }
  assert (Eg : map fst (gt_upds pds gs) = map (fun k => (S k, 0)) (map fst gs)).
  { unfold gt_upds. rewrite !map_map. apply map_ext. reflexivity. }
  assert (Ei : forall x, In x (map fst (inter_upds gs ps)) -> exists i j, x = (S i, S j)).
  { intros x Hx. apply in_map_iff in Hx. destruct Hx as (u & <- & Hu). unfold inter_upds in Hu.
    apply in_flat_map in Hu. destruct Hu as (g & _ & Hu). apply in_map_iff in Hu. destruct Hu as (p & <- & _). cbn. eauto. }
  assert (Ni : NoDup (map fst (inter_upds gs ps))).
  { unfold inter_upds. clearbody gs ps. induction gs as [|g gs' IH]; cbn; [constructor|].
    cbn in Hg. inversion Hg as [|? ? H1 H2]; subst. rewrite map_app, map_map. cbn. apply NoDup_app_disjoint.
    - apply (NoDup_map_inj (fun k => (S (fst g), S k))) in Hp; [|intros ? ? _ _ [= ->]; reflexivity].
      rewrite map_map in Hp. exact Hp.
    - apply IH; [exact H2| |].
      + unfold gt_upds. rewrite !map_map. apply map_ext. reflexivity.
      + intros x Hx. apply in_map_iff in Hx. destruct Hx as (u & <- & Hu). unfold inter_upds in Hu.
        apply in_flat_map in Hu. destruct Hu as (g' & _ & Hu). apply in_map_iff in Hu. destruct Hu as (p & <- & _). cbn. eauto.
    - intros x Hx Hy. apply in_map_iff in Hx. destruct Hx as (p & <- & _).
      apply in_map_iff in Hy. destruct Hy as (u & E & Hu). apply in_flat_map in Hu. destruct Hu as (g' & Hg' & Hu).
      apply in_map_iff in Hu. destruct Hu as (p' & <- & _). cbn in E. injection E as E1 E2. apply H1. rewrite <- E1. apply in_map. exact Hg'. }
  constructor.
  - rewrite !in_app_iff. intros [H|[H|H]].
    + destruct (Ei _ H) as (i & j & E). discriminate.
    + rewrite Ep in H. apply in_map_iff in H. destruct H as (k & E & _). discriminate.
    + rewrite Eg in H. apply in_map_iff in H. destruct H as (k & E & _). discriminate.
  - apply NoDup_app_disjoint; [exact Ni|apply NoDup_app_disjoint|].
    + rewrite Ep. apply NoDup_map_inj; [intros ? ? _ _ [= ->]; reflexivity|exact Hp].
    + rewrite Eg. apply NoDup_map_inj; [intros ? ? _ _ [= ->]; reflexivity|exact Hg].
    + rewrite Ep, Eg. intros x Hx Hy. apply in_map_iff in Hx, Hy. destruct Hx as (? & <- & _), Hy as (? & E & _). discriminate.
    + intros x Hx Hy. destruct (Ei _ Hx) as (i & j & ->). apply in_app_iff in Hy. destruct Hy as [Hy|Hy].
      * rewrite Ep in Hy. apply in_map_iff in Hy. destruct Hy as (? & E & _). discriminate.
      * rewrite Eg in Hy. apply in_map_iff in Hy. destruct Hy as (? & E & _). discriminate.
Qed.

(* ------------------------------------------------------------------ one side of a datum *)
Definition ids_of (L : list string) (bs : list bitmask) (ids : list nat) : Prop :=
  Forall2 (fun b i => index_of (bm_label b) L = Some i) bs ids.

Lemma same_refl_None o : same o None = match o with Some _ => false | None => true end.
Proof. destruct o; reflexivity. Qed.
Lemma same_eq a b : same a b = true <-> a = b.
Proof.
  destruct a as [x|], b as [y|]; cbn; split; intros H; try discriminate; auto.
  - apply String.eqb_eq in H. subst. reflexivity.
  - injection H as ->. apply String.eqb_refl.
Qed.
Lemma is_label_same o l : is_label o l = same o (Some l).
Proof. destruct o; reflexivity. Qed.

Lemma disjoint_cons b bs : disjoint_masks (b :: bs) ->
  disjoint_masks bs /\ forall b' p, In b' bs -> px b p = true -> px b' p = true -> False.
Proof.
  intros H. split.
  - intros i j x y p Hi Hj N. apply (H (S i) (S j) x y p Hi Hj). lia.
  - intros b' p Hb. apply In_nth_error in Hb. destruct Hb as (j & Hj). apply (H 0 (S j) b b' p eq_refl Hj). lia.
Qed.

Lemma label_at_in bs b p : disjoint_masks bs -> distinct_labels bs -> In b bs ->
  same (label_at bs p) (Some (bm_label b)) = px b p.
Proof.
  unfold label_at. induction bs as [|x bs IH]; intros Hd Hl Hb; [destruct Hb|].
  apply disjoint_cons in Hd. destruct Hd as [Hd Hx]. unfold distinct_labels in Hl. cbn in Hl.
  inversion Hl as [|? ? Hl1 Hl2]; subst. cbn [find]. destruct (px x p) eqn:E.
  - cbn. destruct Hb as [->|Hb]; [rewrite E, String.eqb_refl; reflexivity|].
    destruct (px b p) eqn:E'; [exfalso; eauto|].
    apply String.eqb_neq. intros C. apply Hl1. rewrite C. apply in_map. exact Hb.
  - destruct Hb as [->|Hb]; [|apply IH; assumption]. rewrite E.
    destruct (find (fun b0 => px b0 p) bs) as [y|] eqn:F; [|reflexivity].
    apply find_some in F. cbn. apply String.eqb_neq. intros C. apply Hl1. rewrite <- C. apply in_map, F.
Qed.
Lemma label_at_none bs p : label_at bs p = None <-> forall b, In b bs -> px b p = false.
Proof.
  unfold label_at. destruct (find (fun b => px b p) bs) as [b|] eqn:E.
  - apply find_some in E. split; [discriminate|]. intros H. rewrite (H b) in E; intuition discriminate.
  - split; [|reflexivity]. intros _ b Hb. exact (find_none _ _ E b Hb).
Qed.
Lemma label_at_label bs p l : label_at bs p = Some l -> In l (map bm_label bs).
Proof.
  unfold label_at. destruct (find (fun b => px b p) bs) as [b|] eqn:E; [|discriminate].
  intros [= <-]. apply in_map. apply find_some in E. apply E.
Qed.

Lemma ids_pairs L bs ids i m : ids_of L bs ids ->
  In (i, m) (combine ids (map bm_bits bs)) <-> exists b, In b bs /\ bm_bits b = m /\ index_of (bm_label b) L = Some i.
Proof.
  induction 1 as [|b k bs' ids' Hk _ IH]; cbn.
  - split; [intros []|intros (b & [] & _)].
  - rewrite IH. split.
    + intros [[= -> <-]|(b' & H1 & H2)]; [exists b; auto|exists b'; intuition].
    + intros (b' & [<-|Hb'] & Hm & Hi); [left; congruence|right; eauto].
Qed.
Lemma ids_NoDup L bs ids : ids_of L bs ids -> NoDup (map bm_label bs) -> NoDup ids.
Proof.
  induction 1 as [|b k bs' ids' Hk Ht IH]; cbn; intros Hn; constructor; inversion Hn as [|? ? H1 H2]; subst; [|auto].
  intros Hin. apply H1. clear -Hk Ht Hin. induction Ht as [|b' k' bs'' ids'' Hk' _ IH]; cbn in *; [destruct Hin|].
  destruct Hin as [->|Hin]; [left; symmetry; eapply index_of_inj; eassumption|right; auto].
Qed.
Lemma countb_px bs p : disjoint_masks bs -> countb (fun x => px x p) bs = if same (label_at bs p) None then 0 else 1.
Proof.
  unfold label_at. induction bs as [|x l IH]; intros Hd; [reflexivity|].
  apply disjoint_cons in Hd. destruct Hd as [Hd Hx].
  unfold countb in *. cbn. destruct (px x p) eqn:E; cbn; [|apply IH; exact Hd].
  rewrite filter_none; [reflexivity|]. intros y Hy. destruct (px y p) eqn:E'; [exfalso; eauto|reflexivity].
Qed.

Section Side.
  Variables (L : list string) (bs : list bitmask) (ids : list nat) (size : Z).
  Hypothesis Hids : ids_of L bs ids.
  Hypothesis Hd : disjoint_masks bs.
  Hypothesis Hl : distinct_labels bs.
  Hypothesis Hsz : (0 < size)%Z.
  Hypothesis Hlen : forall b, In b bs -> Z.of_nat (List.length (bm_bits b)) = size.
  Let N := Z.to_nat size.
  Let M := stack_masks size bs.

  Lemma side_len m : In m M -> List.length m = N.
  Proof.
    clear Hids Hd Hl.
    unfold M, N, stack_masks. destruct bs as [|b t] eqn:E.
    - intros [<-|[]]. apply repeat_length.
    - intros Hm. apply in_map_iff in Hm. destruct Hm as (x & <- & Hx). rewrite <- (Hlen x Hx). lia.
  Qed.

  Lemma side_pairs i m : In (i, m) (combine ids M) <->
    exists b, In b bs /\ bm_bits b = m /\ index_of (bm_label b) L = Some i.
  Proof.
    unfold M. assert (E : combine ids (stack_masks size bs) = combine ids (map bm_bits bs)).
    { destruct bs; [|reflexivity]. inversion Hids. reflexivity. }
    rewrite E. apply ids_pairs, Hids.
  Qed.
  Lemma side_fst : map fst (combine ids M) = ids.
  Proof.
    unfold M. destruct bs as [|b t] eqn:E.
    - inversion Hids. reflexivity.
    - cbn [stack_masks]. rewrite <- E. apply combine_fst. rewrite map_length. symmetry. rewrite E. apply (Forall2_len _ _ _ Hids).
  Qed.
  Lemma side_NoDup : NoDup (map fst (combine ids M)).
  Proof.
    rewrite side_fst. eapply ids_NoDup; eassumption.
  Qed.

  Lemma side_count p : countb (fun m => nth p m false) M = (if same (label_at bs p) None then 0 else 1).
  Proof.
    clear Hids Hl.
    unfold M, stack_masks. destruct bs as [|b0 t] eqn:E0.
    - unfold countb. cbn. rewrite nth_repeat_false. reflexivity.
    - rewrite <- E0 in *. rewrite countb_map. apply countb_px, Hd.
  Qed.

  Lemma side_any p : nth p (any_axis0 N M) false = negb (same (label_at bs p) None).
  Proof.
    clear Hids Hl.
    assert (G : forall ms acc, List.length acc = N -> (forall m, In m ms -> List.length m = N) ->
                nth p (fold_left bor ms acc) false = nth p acc false || existsb (fun m => nth p m false) ms).
    { induction ms as [|m ms IH]; intros acc Ha Hm; cbn; [rewrite orb_false_r; reflexivity|].
      rewrite IH.
      - rewrite nth_bor by (rewrite Ha; symmetry; apply Hm; left; reflexivity). rewrite orb_assoc. reflexivity.
      - rewrite bor_length; rewrite Ha; [reflexivity|]. symmetry; apply Hm; left; reflexivity.
      - intros; apply Hm; right; assumption. }
    unfold any_axis0. rewrite G; [|apply repeat_length|apply side_len]. rewrite nth_repeat_false. cbn.
    pose proof (side_count p) as C. destruct (same (label_at bs p) None); cbn.
    - destruct (existsb _ M) eqn:E; [|reflexivity]. apply existsb_exists in E. destruct E as (m & Hm & E).
      unfold countb in C. destruct (filter (fun m0 => nth p m0 false) M) eqn:F; [|discriminate].
      assert (In m []) as []. { rewrite <- F. apply filter_In. auto. }
    - apply existsb_exists. unfold countb in C. destruct (filter (fun m0 => nth p m0 false) M) as [|m l] eqn:F; [discriminate|].
      assert (Hm : In m (m :: l)) by (left; reflexivity). rewrite <- F in Hm. apply filter_In in Hm. exists m. exact Hm.
  Qed.
  Lemma side_any_len : List.length (any_axis0 N M) = N.
  Proof.
    clear Hids Hl.
    assert (G : forall ms acc, List.length acc = N -> (forall m, In m ms -> List.length m = N) -> List.length (fold_left bor ms acc) = N).
    { induction ms as [|m ms IH]; intros acc Ha Hm; cbn; [exact Ha|]. apply IH; [|intros; apply Hm; right; assumption].
      rewrite bor_length; rewrite Ha; [reflexivity|]. symmetry. apply Hm. left. reflexivity. }
    apply G; [apply repeat_length|apply side_len].
  Qed.

  (* pixels of another mask covered by this side, and not covered *)
  Lemma side_sum q : List.length q = N ->
    (zsum (map (fun m => bsum (band m q)) M) =
     Z.of_nat (countb (fun p => negb (same (label_at bs p) None) && nth p q false) (seq 0 N)))%Z.
  Proof.
    clear Hids Hl.
    intros Hq.
    assert (E : zsum (map (fun m => bsum (band m q)) M)
                = Z.of_nat (list_sum_nat (map (fun m => countb (fun p => nth p m false && nth p q false) (seq 0 N)) M))).
    { assert (G : forall ms, (forall m, In m ms -> List.length m = N) ->
         zsum (map (fun m => bsum (band m q)) ms)
         = Z.of_nat (list_sum_nat (map (fun m => countb (fun p => nth p m false && nth p q false) (seq 0 N)) ms))).
      { induction ms as [|m ms IH]; intros Hm; [reflexivity|]. cbn [map zsum fold_right list_sum_nat].
        fold (zsum (map (fun m => bsum (band m q)) ms)). fold (list_sum_nat (map (fun m => countb (fun p => nth p m false && nth p q false) (seq 0 N)) ms)).
        assert (Hm0 : List.length m = N) by (apply Hm; left; reflexivity).
        rewrite IH by (intros; apply Hm; right; assumption).
        rewrite (bsum_seq _ N) by (rewrite band_length; lia).
        rewrite (countb_ext _ (fun p => nth p m false && nth p q false)) by (intros; apply nth_band; lia). lia. }
      apply G. apply side_len. }
    rewrite E. f_equal. rewrite (list_sum_map_countb (fun m p => nth p m false && nth p q false)).
    rewrite <- list_sum_nat_if. apply list_sum_nat_ext. intros p _.
    destruct (nth p q false).
    - rewrite (countb_ext _ (fun m => nth p m false)) by (intros; apply andb_true_r). rewrite side_count.
      destruct (same (label_at bs p) None); reflexivity.
    - rewrite andb_false_r. apply countb_false. intros; apply andb_false_r.
  Qed.
End Side.

Lemma u64_small z : (0 <= z < 2 ^ 64)%Z -> u64 z = z.
Proof. intros H. unfold u64, two64. apply Z.mod_small. exact H. Qed.
Lemma countb_small (f : nat -> bool) N : (Z.of_nat (countb f (seq 0 N)) <= Z.of_nat N)%Z.
Proof. pose proof (countb_le_length f (seq 0 N)) as H. rewrite seq_length in H. lia. Qed.

Section Datum.
  Variables (s : segmentation) (L : list string) (gls pls : list nat).
  Hypothesis Hc : clean s.
  Hypothesis Hsmall : (sg_size s < 2 ^ 64)%Z.
  Hypothesis HL : NoDup L.
  Hypothesis Hg : ids_of L (sg_gts s) gls.
  Hypothesis Hp : ids_of L (sg_pds s) pls.
  Let N := Z.to_nat (sg_size s).
  Let G := stack_masks (sg_size s) (sg_gts s).
  Let P := stack_masks (sg_size s) (sg_pds s).

  Lemma find_mask bs l : In l (map bm_label bs) -> exists b, In b bs /\ bm_label b = l.
  Proof. intros H. apply in_map_iff in H. destruct H as (b & E & Hb). eauto. Qed.
  Lemma index_in bs ids b : ids_of L bs ids -> In b bs -> exists i, index_of (bm_label b) L = Some i.
  Proof. intros H Hb. induction H as [|b' i bs' ids' Hi _ IH]; [destruct Hb|destruct Hb as [<-|Hb]; eauto]. Qed.

  Theorem datum_cell i j a b :
    index_label L i = Some a -> index_label L j = Some b ->
    compute_intermediates N G P gls pls i j
    = Z.of_nat (countb (fun p => same (gt_at s p) a && same (pd_at s p) b) (pixels s)).
  Proof.
    destruct Hc as ([Hsz Hln] & Dg & Dp & Lg & Lp). intros Hi Hj.
    assert (Hlg : forall b0, In b0 (sg_gts s) -> Z.of_nat (List.length (bm_bits b0)) = sg_size s) by auto.
    assert (Hlp : forall b0, In b0 (sg_pds s) -> Z.of_nat (List.length (bm_bits b0)) = sg_size s) by auto.
    assert (ND : NoDup (map fst (all_upds N G P gls pls))).
    { apply all_upds_NoDup.
      - apply (side_NoDup L (sg_gts s) gls); auto.
      - apply (side_NoDup L (sg_pds s) pls); auto. }
    rewrite intermediates_upds. unfold pixels. fold N.
    assert (small : forall f, u64 (Z.of_nat (countb f (seq 0 N))) = Z.of_nat (countb f (seq 0 N))).
    { intros f. apply u64_small. pose proof (countb_small f N). unfold N in *. lia. }
    destruct i as [|i], j as [|j]; cbn in Hi, Hj.
    - injection Hi as <-. injection Hj as <-.
      rewrite (apply_upds_in _ _ _ _ (bsum (map negb (bor (any_axis0 N G) (any_axis0 N P)))) ND) by (left; reflexivity).
      assert (LG : List.length (any_axis0 N G) = N) by (apply side_any_len; auto).
      assert (LP : List.length (any_axis0 N P) = N) by (apply side_any_len; auto).
      assert (Lb : List.length (bor (any_axis0 N G) (any_axis0 N P)) = N) by (rewrite bor_length; lia).
      rewrite (bsum_seq _ N) by (rewrite map_length; exact Lb). rewrite small. f_equal. apply countb_ext.
      intros p Hpx. apply in_seq in Hpx. rewrite (nth_indep _ false (negb false)) by (rewrite map_length, Lb; lia).
      rewrite map_nth. rewrite nth_bor by lia. unfold N, G, P in *. rewrite !side_any by auto. unfold gt_at, pd_at.
      destruct (same (label_at (sg_gts s) p) None), (same (label_at (sg_pds s) p) None); reflexivity.
    - (* unmatched predictions *)
      injection Hi as <-. destruct (nth_error L j) as [l|] eqn:El; [|discriminate]. injection Hj as <-.
      destruct (in_dec string_dec l (map bm_label (sg_pds s))) as [Hin|Hout].
      + destruct (find_mask _ _ Hin) as (m & Hm & <-).
        rewrite (apply_upds_in _ _ _ _ (bsum (bm_bits m) - zsum (map (fun g => bsum (band g (bm_bits m))) G))%Z ND).
        * assert (Lm : List.length (bm_bits m) = N) by (unfold N; rewrite <- (Hlp m Hm); lia).
          unfold G. rewrite side_sum by auto. rewrite (bsum_seq _ N Lm). fold N.
          rewrite (countb_ext (fun p => same (gt_at s p) None && same (pd_at s p) (Some (bm_label m)))
                     (fun p => nth p (bm_bits m) false && same (gt_at s p) None)).
          2:{ intros p _. unfold pd_at. rewrite label_at_in by auto. apply andb_comm. }
          etransitivity; [|apply small]. f_equal. unfold gt_at.
          rewrite (countb_ext (fun p => negb (same (label_at (sg_gts s) p) None) && nth p (bm_bits m) false)
                     (fun p => nth p (bm_bits m) false && negb (same (label_at (sg_gts s) p) None))) by (intros; apply andb_comm).
          pose proof (countb_split (fun p => nth p (bm_bits m) false) (fun p => same (label_at (sg_gts s) p) None) (seq 0 N)) as CS. cbv beta in CS. lia.
        * right. apply in_app_iff. right. apply in_app_iff. left. unfold pd_upds. apply in_map_iff.
          exists (j, bm_bits m). split; [reflexivity|]. apply (side_pairs L (sg_pds s) pls); auto.
          exists m. split; [exact Hm|]. split; [reflexivity|]. apply index_of_NoDup; assumption.
      + rewrite apply_upds_out.
        * unfold mzero. symmetry. rewrite countb_false; [reflexivity|]. intros p _.
          destruct (same (pd_at s p) (Some l)) eqn:E; [|apply andb_false_r]. apply same_eq in E.
          exfalso. apply Hout. apply (label_at_label _ _ _ E).
        * intros X. unfold all_upds in X. cbn [map] in X. destruct X as [X|X]; [discriminate|].
          rewrite !map_app, !in_app_iff in X. destruct X as [X|[X|X]].
          -- apply in_map_iff in X. destruct X as (u & E & Hu). unfold inter_upds in Hu. apply in_flat_map in Hu.
             destruct Hu as (g & _ & Hu). apply in_map_iff in Hu. destruct Hu as (q & <- & _). discriminate.
          -- apply in_map_iff in X. destruct X as (u & E & Hu). apply in_map_iff in Hu. destruct Hu as ([k m] & <- & Hk).
             injection E as E. subst k. apply (side_pairs L (sg_pds s) pls) in Hk; auto. destruct Hk as (m' & Hm' & _ & Hx).
             apply index_of_nth in Hx. rewrite El in Hx. injection Hx as ->. apply Hout. apply in_map. exact Hm'.
          -- apply in_map_iff in X. destruct X as (u & E & Hu). apply in_map_iff in Hu. destruct Hu as (q & <- & _). discriminate.
    - (* unmatched ground truths *)
      injection Hj as <-. destruct (nth_error L i) as [l|] eqn:El; [|discriminate]. injection Hi as <-.
      destruct (in_dec string_dec l (map bm_label (sg_gts s))) as [Hin|Hout].
      + destruct (find_mask _ _ Hin) as (m & Hm & <-).
        rewrite (apply_upds_in _ _ _ _ (bsum (bm_bits m) - zsum (map (fun q => bsum (band (bm_bits m) q)) P))%Z ND).
        * assert (Lm : List.length (bm_bits m) = N) by (unfold N; rewrite <- (Hlg m Hm); lia).
          assert (EC : map (fun q => bsum (band (bm_bits m) q)) P = map (fun q => bsum (band q (bm_bits m))) P).
          { apply map_ext_in. intros q Hq. unfold P in Hq. apply side_len in Hq; auto. fold N in Hq.
            rewrite (bsum_seq (band (bm_bits m) q) N) by (rewrite band_length; lia).
            rewrite (bsum_seq (band q (bm_bits m)) N) by (rewrite band_length; lia). f_equal. apply countb_ext.
            intros p _. rewrite !nth_band by lia. apply andb_comm. }
          rewrite EC. unfold P. rewrite side_sum by auto. rewrite (bsum_seq _ N Lm). fold N.
          rewrite (countb_ext (fun p => same (gt_at s p) (Some (bm_label m)) && same (pd_at s p) None)
                     (fun p => nth p (bm_bits m) false && same (pd_at s p) None)).
          2:{ intros p _. unfold gt_at. rewrite label_at_in by auto. reflexivity. }
          etransitivity; [|apply small]. f_equal. unfold pd_at.
          rewrite (countb_ext (fun p => negb (same (label_at (sg_pds s) p) None) && nth p (bm_bits m) false)
                     (fun p => nth p (bm_bits m) false && negb (same (label_at (sg_pds s) p) None))) by (intros; apply andb_comm).
          pose proof (countb_split (fun p => nth p (bm_bits m) false) (fun p => same (label_at (sg_pds s) p) None) (seq 0 N)) as CS. cbv beta in CS. lia.
        * right. apply in_app_iff. right. apply in_app_iff. right. unfold gt_upds. apply in_map_iff.
          exists (i, bm_bits m). split; [reflexivity|]. apply (side_pairs L (sg_gts s) gls); auto.
          exists m. split; [exact Hm|]. split; [reflexivity|]. apply index_of_NoDup; assumption.
      + rewrite apply_upds_out.
        * unfold mzero. symmetry. rewrite countb_false; [reflexivity|]. intros p _.
          destruct (same (gt_at s p) (Some l)) eqn:E; [|reflexivity]. apply same_eq in E.
          exfalso. apply Hout. apply (label_at_label _ _ _ E).
        * intros X. unfold all_upds in X. cbn [map] in X. destruct X as [X|X]; [discriminate|].
          rewrite !map_app, !in_app_iff in X. destruct X as [X|[X|X]].
          -- apply in_map_iff in X. destruct X as (u & E & Hu). unfold inter_upds in Hu. apply in_flat_map in Hu.
             destruct Hu as (g & _ & Hu). apply in_map_iff in Hu. destruct Hu as (q & <- & _). discriminate.
          -- apply in_map_iff in X. destruct X as (u & E & Hu). apply in_map_iff in Hu. destruct Hu as (q & <- & _). discriminate.
          -- apply in_map_iff in X. destruct X as (u & E & Hu). apply in_map_iff in Hu. destruct Hu as ([k m] & <- & Hk).
             injection E as E. subst k. apply (side_pairs L (sg_gts s) gls) in Hk; auto. destruct Hk as (m' & Hm' & _ & Hx).
             apply index_of_nth in Hx. rewrite El in Hx. injection Hx as ->. apply Hout. apply in_map. exact Hm'.
    - (* pairs *)
      destruct (nth_error L i) as [l|] eqn:El; [|discriminate]. injection Hi as <-.
      destruct (nth_error L j) as [l'|] eqn:El'; [|discriminate]. injection Hj as <-.
      destruct (in_dec string_dec l (map bm_label (sg_gts s))) as [Hin|Hout];
        [destruct (in_dec string_dec l' (map bm_label (sg_pds s))) as [Hin'|Hout']|].
      + destruct (find_mask _ _ Hin) as (g & Hgm & <-). destruct (find_mask _ _ Hin') as (q & Hq & <-).
        rewrite (apply_upds_in _ _ _ _ (bsum (band (bm_bits g) (bm_bits q))) ND).
        * assert (Lm : List.length (bm_bits g) = N) by (unfold N; rewrite <- (Hlg g Hgm); lia).
          assert (Lq : List.length (bm_bits q) = N) by (unfold N; rewrite <- (Hlp q Hq); lia).
          rewrite (bsum_seq _ N) by (rewrite band_length; lia). rewrite small. f_equal. apply countb_ext.
          intros p _. rewrite nth_band by lia. unfold gt_at, pd_at. rewrite !label_at_in by auto. reflexivity.
        * right. apply in_app_iff. left. unfold inter_upds. apply in_flat_map. exists (i, bm_bits g). split.
          -- apply (side_pairs L (sg_gts s) gls); auto. exists g. split; [exact Hgm|]. split; [reflexivity|]. apply index_of_NoDup; assumption.
          -- apply in_map_iff. exists (j, bm_bits q). split; [reflexivity|].
             apply (side_pairs L (sg_pds s) pls); auto. exists q. split; [exact Hq|]. split; [reflexivity|]. apply index_of_NoDup; assumption.
      + rewrite apply_upds_out.
        * unfold mzero. symmetry. rewrite countb_false; [reflexivity|]. intros p _.
          destruct (same (pd_at s p) (Some l')) eqn:E; [|apply andb_false_r]. apply same_eq in E.
          exfalso. apply Hout'. apply (label_at_label _ _ _ E).
        * intros X. unfold all_upds in X. cbn [map] in X. destruct X as [X|X]; [discriminate|].
          rewrite !map_app, !in_app_iff in X. destruct X as [X|[X|X]].
          -- apply in_map_iff in X. destruct X as (u & E & Hu). unfold inter_upds in Hu. apply in_flat_map in Hu.
             destruct Hu as (g & _ & Hu). apply in_map_iff in Hu. destruct Hu as ([k m] & <- & Hk). injection E as _ E. subst k.
             apply (side_pairs L (sg_pds s) pls) in Hk; auto. destruct Hk as (m' & Hm' & _ & Hx).
             apply index_of_nth in Hx. rewrite El' in Hx. injection Hx as ->. apply Hout'. apply in_map. exact Hm'.
          -- apply in_map_iff in X. destruct X as (u & E & Hu). apply in_map_iff in Hu. destruct Hu as (q & <- & _). discriminate.
          -- apply in_map_iff in X. destruct X as (u & E & Hu). apply in_map_iff in Hu. destruct Hu as (q & <- & _). discriminate.
      + rewrite apply_upds_out.
        * unfold mzero. symmetry. rewrite countb_false; [reflexivity|]. intros p _.
          destruct (same (gt_at s p) (Some l)) eqn:E; [|reflexivity]. apply same_eq in E.
          exfalso. apply Hout. apply (label_at_label _ _ _ E).
        * intros X. unfold all_upds in X. cbn [map] in X. destruct X as [X|X]; [discriminate|].
          rewrite !map_app, !in_app_iff in X. destruct X as [X|[X|X]].
          -- apply in_map_iff in X. destruct X as (u & E & Hu). unfold inter_upds in Hu. apply in_flat_map in Hu.
             destruct Hu as ([k m] & Hk & Hu). apply in_map_iff in Hu. destruct Hu as (q & <- & _). injection E as E _. subst k.
             apply (side_pairs L (sg_gts s) gls) in Hk; auto. destruct Hk as (m' & Hm' & _ & Hx).
             apply index_of_nth in Hx. rewrite El in Hx. injection Hx as ->. apply Hout. apply in_map. exact Hm'.
          -- apply in_map_iff in X. destruct X as (u & E & Hu). apply in_map_iff in Hu. destruct Hu as (q & <- & _). discriminate.
          -- apply in_map_iff in X. destruct X as (u & E & Hu). apply in_map_iff in Hu. destruct Hu as (q & <- & _). discriminate.
  Qed.
End Datum.
