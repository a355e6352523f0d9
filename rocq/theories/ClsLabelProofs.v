(* Label registry and the rows written by the classification loader. *)
From Verif Require Import Prelude CacheSpec Counting ClsModel ClsSpec.
From Coq Require Import String QArith.
Local Open Scope nat_scope.
Local Open Scope list_scope.

(* ------------------------------------------------------------------ *)
(** * Registry *)

Lemma index_of_nth v L i : index_of v L = Some i -> nth_error L i = Some v.
Proof.
  revert i. induction L as [|x t IH]; intros i; simpl; [discriminate|].
  destruct (String.eqb_spec v x) as [->|N].
  - intros [= <-]. reflexivity.
  - destruct (index_of v t) as [j|]; simpl; [|discriminate]. intros [= <-]. simpl. apply IH. reflexivity.
Qed.

Lemma index_of_None v L : index_of v L = None <-> ~ In v L.
Proof.
  induction L as [|x t IH]; simpl; [tauto|].
  destruct (String.eqb_spec v x) as [->|N].
  - split; [discriminate|]. intros H; exfalso; apply H; auto.
  - destruct (index_of v t); simpl; split; try discriminate.
    + intros H. exfalso. apply H. right. destruct (in_dec string_dec v t) as [Hi|Hi]; [exact Hi|].
      apply (proj2 IH) in Hi. discriminate.
    + intros _ [Hx|Hx]; [congruence|]. apply (proj1 IH eq_refl Hx).
    + reflexivity.
Qed.

Lemma index_of_app v L L' i : index_of v L = Some i -> index_of v (L ++ L') = Some i.
Proof.
  revert i. induction L as [|x t IH]; intros i; simpl; [discriminate|].
  destruct (String.eqb v x); [auto|].
  destruct (index_of v t) as [j|]; simpl; [|discriminate]. rewrite (IH j eq_refl). auto.
Qed.

Lemma index_of_snoc v L : ~ In v L -> index_of v (L ++ [v]) = Some (List.length L).
Proof.
  induction L as [|x t IH]; simpl; intros H.
  - rewrite String.eqb_refl. reflexivity.
  - destruct (String.eqb_spec v x) as [->|N]; [exfalso; apply H; auto|].
    rewrite IH by tauto. reflexivity.
Qed.

Lemma index_of_NoDup v L i : NoDup L -> nth_error L i = Some v -> index_of v L = Some i.
Proof.
  revert i. induction L as [|x t IH]; intros i Hn H; [destruct i; discriminate|].
  inversion Hn; subst. destruct i as [|i]; simpl in H |- *.
  - injection H as ->. rewrite String.eqb_refl. reflexivity.
  - destruct (String.eqb_spec v x) as [->|N].
    + exfalso. apply nth_error_In in H. auto.
    + rewrite (IH i) by auto. reflexivity.
Qed.

Lemma index_of_inj v w L i : index_of v L = Some i -> index_of w L = Some i -> v = w.
Proof. intros H1 H2. apply index_of_nth in H1. apply index_of_nth in H2. congruence. Qed.

(* extension of a registry: only appended to *)
Definition extends (L L' : list string) : Prop := exists X, L' = L ++ X.
Lemma extends_refl L : extends L L.
Proof. exists []. rewrite app_nil_r. reflexivity. Qed.
Lemma extends_trans L1 L2 L3 : extends L1 L2 -> extends L2 L3 -> extends L1 L3.
Proof. intros [X ->] [Y ->]. exists (X ++ Y). rewrite app_assoc. reflexivity. Qed.
Lemma extends_index L L' v i : extends L L' -> index_of v L = Some i -> index_of v L' = Some i.
Proof. intros [X ->]. apply index_of_app. Qed.

Lemma smem_In l ls : smem l ls = true <-> In l ls.
Proof.
  unfold smem. rewrite existsb_exists. split.
  - intros (x & Hin & E). apply String.eqb_eq in E. subst. exact Hin.
  - intros H. exists l. rewrite String.eqb_refl. auto.
Qed.

Lemma add_label_spec L v :
  exists i, add_label L v = (first_appearance L [v], i)
    /\ index_of v (first_appearance L [v]) = Some i
    /\ extends L (first_appearance L [v]).
Proof.
  unfold add_label. simpl. destruct (index_of v L) as [i|] eqn:E.
  - exists i. assert (In v L) by (apply index_of_nth in E; eapply nth_error_In; eauto).
    destruct (smem v L) eqn:S; [|apply (proj2 (smem_In _ _)) in H; congruence].
    auto using extends_refl.
  - apply index_of_None in E. exists (List.length L).
    destruct (smem v L) eqn:S; [apply smem_In in S; contradiction|].
    repeat split; [apply index_of_snoc; exact E|exists [v]; reflexivity].
Qed.

Lemma first_appearance_app L a b : first_appearance L (a ++ b) = first_appearance (first_appearance L a) b.
Proof. revert L. induction a as [|x t IH]; intros L; simpl; [reflexivity|apply IH]. Qed.

Lemma first_appearance_extends L l : extends L (first_appearance L l).
Proof.
  revert L. induction l as [|x t IH]; intros L; simpl; [apply extends_refl|].
  eapply extends_trans; [|apply IH]. destruct (smem x L); [apply extends_refl|exists [x]; reflexivity].
Qed.

Lemma first_appearance_In L l v : In v (first_appearance L l) <-> In v L \/ In v l.
Proof.
  revert L. induction l as [|x t IH]; intros L; simpl; [tauto|].
  rewrite IH. destruct (smem x L) eqn:E.
  - apply smem_In in E. split; [tauto|]. intros [H|[<-|H]]; auto.
  - rewrite in_app_iff. simpl. tauto.
Qed.

Lemma first_appearance_NoDup L l : NoDup L -> NoDup (first_appearance L l).
Proof.
  revert L. induction l as [|x t IH]; intros L H; simpl; [exact H|].
  apply IH. destruct (smem x L) eqn:E; [exact H|].
  apply NoDup_app_disjoint; auto; [repeat constructor; auto|].
  intros y Hy [<-|[]]. apply (proj2 (smem_In x L)) in Hy. congruence.
Qed.

Lemma labels_of_NoDup cs : NoDup (labels_of cs).
Proof. apply first_appearance_NoDup. constructor. Qed.

(* index of a label in a registry, as stored in a row *)
Definition idx (L : list string) (v : string) : Z :=
  match index_of v L with Some i => Z.of_nat i | None => (-1)%Z end.

Lemma idx_eqb L v w : In v L -> In w L -> (idx L v =? idx L w)%Z = String.eqb v w.
Proof.
  intros Hv Hw. unfold idx.
  destruct (index_of v L) as [i|] eqn:E1; [|apply index_of_None in E1; contradiction].
  destruct (index_of w L) as [j|] eqn:E2; [|apply index_of_None in E2; contradiction].
  destruct (String.eqb_spec v w) as [->|N].
  - rewrite E1 in E2. injection E2 as ->. lia.
  - apply Z.eqb_neq. intros H. apply Nat2Z.inj in H. subst. apply N. eapply index_of_inj; eauto.
Qed.

Lemma idx_range L v : In v L -> (0 <= idx L v < Z.of_nat (List.length L))%Z.
Proof.
  intros Hv. unfold idx.
  destruct (index_of v L) as [i|] eqn:E1; [|apply index_of_None in E1; contradiction].
  apply index_of_nth in E1. assert (i < List.length L) by (apply nth_error_Some; congruence). lia.
Qed.

Lemma idx_nth L v : In v L -> nth_error L (Z.to_nat (idx L v)) = Some v.
Proof.
  intros Hv. unfold idx.
  destruct (index_of v L) as [i|] eqn:E1; [|apply index_of_None in E1; contradiction].
  rewrite Nat2Z.id. apply index_of_nth. exact E1.
Qed.

Lemma idx_of_nth L v i : NoDup L -> nth_error L i = Some v -> idx L v = Z.of_nat i.
Proof. intros Hn H. unfold idx. rewrite (index_of_NoDup v L i); auto. Qed.

Lemma idx_extends L L' v : In v L -> extends L L' -> idx L' v = idx L v.
Proof.
  intros Hv He. unfold idx. destruct (index_of v L) as [i|] eqn:E1; [|apply index_of_None in E1; contradiction].
  rewrite (extends_index _ _ _ _ He E1). reflexivity.
Qed.

(* ------------------------------------------------------------------ *)
(** * Rows of one datum in terms of the final registry *)

Definition canon_row (L : list string) (d : nat) (c : classification) (mx i : nat) (ps : string * Z) : crow :=
  MkRow (c_uid c) (Z.of_nat d) (c_groundtruth c) (idx L (c_groundtruth c)) (fst ps) (idx L (fst ps))
        (snd ps) (Nat.eqb mx i) (String.eqb (c_groundtruth c) (fst ps)).

Fixpoint mapi_from {A B} (f : nat -> A -> B) (i : nat) (l : list A) : list B :=
  match l with [] => [] | x :: t => f i x :: mapi_from f (S i) t end.
Definition mapi {A B} (f : nat -> A -> B) (l : list A) : list B := mapi_from f 0 l.

Definition canon_rows (L : list string) (d : nat) (c : classification) : list crow :=
  mapi (canon_row L d c (argmax (c_scores c))) (candidates c).

Lemma build_rows_spec c d mx ps : forall i labels gidx L',
  index_of (c_groundtruth c) labels = Some gidx ->
  extends (first_appearance labels (map fst ps)) L' ->
  fst (build_rows c d gidx mx i labels ps) = first_appearance labels (map fst ps) /\
  snd (build_rows c d gidx mx i labels ps) = mapi_from (canon_row L' d c mx) i ps.
Proof.
  induction ps as [|[pl s] t IH]; intros i labels gidx L' Hg He; [auto|].
  cbn [build_rows map fst] in *.
  destruct (add_label_spec labels pl) as (pidx & Ea & Ep & Ex). rewrite Ea.
  cbn [first_appearance] in He, Ea, Ep, Ex |- *.
  set (labels1 := if smem pl labels then labels else labels ++ [pl]) in *.
  assert (Hg1 : index_of (c_groundtruth c) labels1 = Some gidx) by (eapply extends_index; eauto).
  destruct (IH (S i) labels1 gidx L' Hg1 He) as [H1 H2].
  destruct (build_rows c d gidx mx (S i) labels1 t) as [labels2 rows]. cbn [fst snd] in *.
  split; [exact H1|]. cbn [mapi_from]. rewrite <- H2. f_equal.
  assert (E2 : extends labels1 L') by (eapply extends_trans; [apply first_appearance_extends|exact He]).
  assert (F1 : index_of (c_groundtruth c) L' = Some gidx) by (eapply extends_index; eauto).
  assert (F2 : index_of pl L' = Some pidx) by (eapply extends_index; eauto).
  unfold canon_row. cbn [fst snd]. unfold idx. rewrite F1, F2. f_equal.
  destruct (String.eqb_spec (c_groundtruth c) pl) as [E|N].
  - rewrite E in F1. rewrite F1 in F2. injection F2 as ->. apply Nat.eqb_refl.
  - apply Nat.eqb_neq. intros ->. apply N. eapply index_of_inj; eauto.
Qed.

Lemma combine_fst {A B} (a : list A) (b : list B) : List.length a = List.length b -> map fst (combine a b) = a.
Proof.
  revert b. induction a as [|x t IH]; intros [|y u]; simpl; intros H; try discriminate; auto.
  rewrite IH; auto.
Qed.

Definition datum_labels (c : classification) : list string := c_groundtruth c :: c_predictions c.

Lemma add_one_spec l c L' :
  accepted c -> extends (first_appearance (ld_labels l) (datum_labels c)) L' ->
  add_one l c = Some (MkLoader (first_appearance (ld_labels l) (datum_labels c)) (S (ld_count l))
                        (ld_writes l ++ [canon_rows L' (ld_count l) c])).
Proof.
  intros [Hne Hlen] He. unfold add_one.
  destruct (c_predictions c) as [|p0 pt] eqn:Ep; [contradiction|]. rewrite <- Ep in *.
  destruct (add_label_spec (ld_labels l) (c_groundtruth c)) as (gidx & Ea & Eg & Ex). rewrite Ea.
  unfold datum_labels in *. cbn [first_appearance] in *.
  set (labels1 := if smem (c_groundtruth c) (ld_labels l) then ld_labels l else ld_labels l ++ [c_groundtruth c]) in *.
  pose proof (combine_fst (c_predictions c) (c_scores c) Hlen) as Hf.
  destruct (build_rows_spec c (ld_count l) (argmax (c_scores c)) (combine (c_predictions c) (c_scores c)) 0
              labels1 gidx L' Eg) as [H1 H2]; [rewrite Hf; exact He|].
  rewrite Hf in H1.
  destruct (build_rows c (ld_count l) gidx (argmax (c_scores c)) 0 labels1
              (combine (c_predictions c) (c_scores c))) as [labels2 rows]. cbn [fst snd] in *.
  subst. reflexivity.
Qed.

Definition all_labels (cs : list classification) : list string := List.concat (map datum_labels cs).

Lemma add_data_spec cs : forall l L',
  Forall accepted cs -> extends (first_appearance (ld_labels l) (all_labels cs)) L' ->
  add_data l cs
  = (MkLoader (first_appearance (ld_labels l) (all_labels cs)) (ld_count l + List.length cs)
       (ld_writes l ++ mapi_from (canon_rows L') (ld_count l) cs), true).
Proof.
  induction cs as [|c t IH]; intros l L' Ha He.
  - cbn. rewrite Nat.add_0_r, app_nil_r. destruct l; reflexivity.
  - inversion Ha; subst. unfold all_labels in *. cbn [map List.concat] in *.
    rewrite first_appearance_app in *.
    cbn [add_data].
    rewrite (add_one_spec l c L') by (first [assumption | eapply extends_trans; [apply first_appearance_extends|exact He]]).
    rewrite (IH _ L') by assumption. cbn [ld_labels ld_count ld_writes mapi_from List.length].
    rewrite <- app_assoc. replace (S (ld_count l) + List.length t) with (ld_count l + S (List.length t)) by lia.
    reflexivity.
Qed.

(* the state after loading a whole input *)
Theorem loaded cs :
  Forall accepted cs ->
  add_data loader_init cs
  = (MkLoader (labels_of cs) (List.length cs) (mapi (canon_rows (labels_of cs)) cs), true).
Proof.
  intros H. rewrite (add_data_spec cs loader_init (labels_of cs)); auto.
  unfold labels_of, all_labels. apply extends_refl.
Qed.

Lemma labels_of_gt cs c : In c cs -> In (c_groundtruth c) (labels_of cs).
Proof.
  intros H. unfold labels_of. apply first_appearance_In. right. apply in_concat.
  exists (datum_labels c). split; [|left; reflexivity]. apply in_map_iff. exists c. auto.
Qed.
Lemma labels_of_pd cs c p : In c cs -> In p (candidates c) -> In (fst p) (labels_of cs).
Proof.
  intros H Hp. unfold labels_of. apply first_appearance_In. right. apply in_concat.
  exists (datum_labels c). split; [|right].
  - apply in_map_iff. exists c. auto.
  - destruct p. simpl. unfold candidates in Hp. apply in_combine_l in Hp. exact Hp.
Qed.
Lemma labels_of_inv cs l :
  Forall accepted cs -> In l (labels_of cs) ->
  exists c, In c cs /\ (l = c_groundtruth c \/ exists s, In (l, s) (candidates c)).
Proof.
  intros Ha H. unfold labels_of in H. apply first_appearance_In in H. destruct H as [[]|H].
  apply in_concat in H. destruct H as (x & Hx & Hl). apply in_map_iff in Hx. destruct Hx as (c & <- & Hc).
  exists c. split; [exact Hc|]. destruct Hl as [<-|Hl]; [auto|right].
  rewrite Forall_forall in Ha. destruct (Ha c Hc) as [_ Hlen].
  rewrite <- (combine_fst (c_predictions c) (c_scores c) Hlen) in Hl.
  apply in_map_iff in Hl. destruct Hl as ((a, s) & E & Hin). simpl in E. subst. exists s. exact Hin.
Qed.

(* mapi *)
Lemma mapi_from_In {A B} (f : nat -> A -> B) l : forall i b,
  In b (mapi_from f i l) <-> exists k a, nth_error l k = Some a /\ b = f (i + k) a.
Proof.
  induction l as [|x t IH]; intros i b; simpl.
  - split; [intros []|]. intros (k & a & H & _). destruct k; discriminate.
  - rewrite IH. split.
    + intros [<-|(k & a & H & ->)].
      * exists 0, x. rewrite Nat.add_0_r. auto.
      * exists (S k), a. rewrite <- plus_n_Sm. auto.
    + intros (k & a & H & ->). destruct k as [|k]; simpl in H.
      * injection H as ->. left. rewrite Nat.add_0_r. reflexivity.
      * right. exists k, a. rewrite <- plus_n_Sm. auto.
Qed.
Lemma mapi_from_nth {A B} (f : nat -> A -> B) l : forall i k,
  nth_error (mapi_from f i l) k = option_map (f (i + k)) (nth_error l k).
Proof.
  induction l as [|x t IH]; intros i [|k]; simpl; auto.
  - rewrite Nat.add_0_r. reflexivity.
  - rewrite IH. rewrite <- plus_n_Sm. reflexivity.
Qed.
Lemma mapi_from_length {A B} (f : nat -> A -> B) l i : List.length (mapi_from f i l) = List.length l.
Proof. revert i. induction l as [|x t IH]; intros i; simpl; auto. Qed.
Lemma map_mapi_from {A B C} (g : B -> C) (f : nat -> A -> B) l i :
  map g (mapi_from f i l) = mapi_from (fun i a => g (f i a)) i l.
Proof. revert i. induction l as [|x t IH]; intros i; simpl; [reflexivity|]. rewrite IH. reflexivity. Qed.
Lemma mapi_from_app {A B} (f : nat -> A -> B) l1 l2 i :
  mapi_from f i (l1 ++ l2) = mapi_from f i l1 ++ mapi_from f (i + List.length l1) l2.
Proof.
  revert i. induction l1 as [|x t IH]; intros i; simpl; [rewrite Nat.add_0_r; reflexivity|].
  rewrite IH. rewrite <- plus_n_Sm. reflexivity.
Qed.
Lemma mapi_from_const {A B} (f : nat -> A -> B) (g : A -> B) l i :
  (forall k a, In a l -> f k a = g a) -> mapi_from f i l = map g l.
Proof.
  revert i. induction l as [|x t IH]; intros i H; simpl; [reflexivity|].
  rewrite H by (left; reflexivity). rewrite IH; [reflexivity|]. intros; apply H; right; auto.
Qed.

(* ------------------------------------------------------------------ *)
(** * The winner *)

Lemma argmax_from_top t : forall bl best besti i scores,
  combine (map fst t) scores = t -> map snd t = scores ->
  (besti < i)%nat ->
  exists w : string * Z, top_from (bl, best) t = w /\
  ((argmax_from best besti i scores = besti /\ w = (bl, best) /\ (forall x, In x t -> (snd x <= best)%Z)) \/
   (exists k, argmax_from best besti i scores = i + k /\ nth_error t k = Some w /\ (best < snd w)%Z
       /\ (forall j x, j < k -> nth_error t j = Some x -> (snd x < snd w)%Z)
       /\ (forall j x, k < j -> nth_error t j = Some x -> (snd x <= snd w)%Z))).
Proof.
  induction t as [|[l s] t IH]; intros bl best besti i scores Hc Hs Hb; subst scores.
  - exists (bl, best). split; [reflexivity|]. left. split; [reflexivity|]. split; [reflexivity|]. intros x [].
  - cbn [map snd fst argmax_from top_from] in *. injection Hc as Hc.
    destruct (best <? s)%Z eqn:E.
    + destruct (IH l s i (S i) (map snd t) Hc eq_refl ltac:(lia)) as (w & Hw & [(H1 & H2 & H3)|(k & H1 & H2 & H3 & H4 & H5)]).
      * exists w. split; [exact Hw|]. right. exists 0. rewrite H1, Nat.add_0_r. rewrite H2. cbn [snd nth_error].
        split; [reflexivity|]. split; [reflexivity|]. split; [lia|]. split.
        -- intros j x Hj. lia.
        -- intros [|j] x Hj Hx; [lia|]. simpl in Hx. apply H3. eapply nth_error_In; eauto.
      * exists w. split; [exact Hw|]. right. exists (S k). rewrite H1.
        split; [lia|]. split; [exact H2|]. split; [lia|]. split.
        -- intros [|j] x Hj Hx; simpl in Hx; [injection Hx as <-; exact H3|]. apply (H4 j); [lia|exact Hx].
        -- intros [|j] x Hj Hx; simpl in Hx; [lia|]. apply (H5 j); [lia|exact Hx].
    + destruct (IH bl best besti (S i) (map snd t) Hc eq_refl ltac:(lia)) as (w & Hw & [(H1 & H2 & H3)|(k & H1 & H2 & H3 & H4 & H5)]).
      * exists w. split; [exact Hw|]. left. split; [exact H1|]. split; [exact H2|]. intros x [<-|Hx]; [cbn; lia|auto].
      * exists w. split; [exact Hw|]. right. exists (S k). rewrite H1. split; [lia|]. split; [exact H2|]. split; [exact H3|]. split.
        -- intros [|j] x Hj Hx; simpl in Hx; [injection Hx as <-; cbn; lia|]. apply (H4 j); [lia|exact Hx].
        -- intros [|j] x Hj Hx; simpl in Hx; [lia|]. apply (H5 j); [lia|exact Hx].
Qed.

Lemma combine_snd {A B} (a : list A) (b : list B) : List.length a = List.length b -> map snd (combine a b) = b.
Proof.
  revert b. induction a as [|x t IH]; intros [|y u]; simpl; intros H; try discriminate; auto.
  rewrite IH; auto.
Qed.

Lemma combine_fst_snd {A B} (l : list (A * B)) : combine (map fst l) (map snd l) = l.
Proof. induction l as [|[a b] t IH]; simpl; congruence. Qed.

(* the winner index points at the top candidate *)
Lemma winner_top c :
  accepted c ->
  exists w, top c = Some w /\ nth_error (candidates c) (argmax (c_scores c)) = Some w
    /\ (forall j x, j < argmax (c_scores c) -> nth_error (candidates c) j = Some x -> (snd x < snd w)%Z)
    /\ (forall j x, argmax (c_scores c) < j -> nth_error (candidates c) j = Some x -> (snd x <= snd w)%Z).
Proof.
  intros [Hne Hlen]. unfold top.
  assert (Hs : c_scores c = map snd (candidates c)) by (symmetry; apply combine_snd; exact Hlen).
  rewrite Hs. destruct (candidates c) as [|[l s] t] eqn:E.
  - exfalso. unfold candidates in E. destruct (c_predictions c), (c_scores c); try discriminate. contradiction.
  - cbn [map snd argmax].
    destruct (argmax_from_top t l s 0 1 (map snd t) (combine_fst_snd t) eq_refl ltac:(lia))
      as (w & Hw & [(H1 & H2 & H3)|(k & H1 & H2 & H3 & H4 & H5)]).
    + exists w. rewrite H1, Hw, H2. cbn [nth_error snd].
      split; [reflexivity|]. split; [reflexivity|]. split; [intros j x Hj; lia|].
      intros [|j] x Hj Hx; [lia|]. apply H3. simpl in Hx. eapply nth_error_In; eauto.
    + exists w. rewrite H1, Hw. cbn [nth_error Nat.add]. split; [reflexivity|]. split; [exact H2|]. split.
      * intros [|j] x Hj Hx; simpl in Hx; [injection Hx as <-; exact H3|]. apply (H4 j); [lia|auto].
      * intros [|j] x Hj Hx; simpl in Hx; [lia|]. apply (H5 j); [lia|auto].
Qed.

Lemma top_is_top c w : accepted c -> top c = Some w -> is_top c w.
Proof.
  intros Ha Ht. destruct (winner_top c Ha) as (w' & E & Hn & H1 & H2).
  assert (w' = w) by congruence. subst w'.
  destruct (nth_error_split _ _ Hn) as (pre & post & Hc & Hl).
  exists pre, post. rewrite <- Hl in *. split; [exact Hc|]. split; intros x Hx.
  - apply In_nth_error in Hx. destruct Hx as (j & Hj).
    assert (j < List.length pre) by (apply nth_error_Some; congruence).
    apply (H1 j); [exact H|]. rewrite Hc, nth_error_app1 by exact H. exact Hj.
  - apply In_nth_error in Hx. destruct Hx as (j & Hj).
    apply (H2 (List.length pre + S j)); [lia|].
    rewrite Hc, nth_error_app2 by lia. replace (List.length pre + S j - List.length pre) with (S j) by lia. exact Hj.
Qed.

Lemma is_top_unique c w w' : is_top c w -> is_top c w' -> w = w'.
Proof.
  intros (p & q & E & H1 & H2) (p' & q' & E' & H1' & H2'). rewrite E in E'.
  clear E. revert p' E' H1 H1'. induction p as [|x p IH]; intros [|x' p'] E' H1 H1'; simpl in E'.
  - congruence.
  - injection E' as -> ->.
    assert (snd x' < snd w')%Z by (apply H1'; left; reflexivity).
    assert (snd w' <= snd x')%Z by (apply H2; apply in_app_iff; right; left; reflexivity). lia.
  - injection E' as -> E'.
    assert (snd w' < snd w)%Z by (apply H1; left; reflexivity).
    assert (In w q') by (rewrite <- E'; apply in_app_iff; right; left; reflexivity).
    apply H2' in H0. lia.
  - injection E' as -> E'. apply (IH p' E'); intros; [apply H1|apply H1']; right; auto.
Qed.

(* the rows of a datum: exactly one winner, carrying the top candidate *)
Lemma canon_split L d c :
  accepted c ->
  exists pre w post,
    canon_rows L d c = pre ++ w :: post
    /\ top c = Some (r_pd_label w, r_score w) /\ r_winner w = true
    /\ (forall r, In r pre \/ In r post -> r_winner r = false)
    /\ r_pd w = idx L (r_pd_label w).
Proof.
  intros Ha. destruct (winner_top c Ha) as ([l s] & E & Hn & _ & _).
  destruct (nth_error_split _ _ Hn) as (pre & post & Hc & Hl).
  unfold canon_rows, mapi. rewrite Hc. rewrite mapi_from_app. cbn [mapi_from].
  eexists _, _, _. split; [reflexivity|]. unfold canon_row at 1 2 3. cbn [r_pd_label r_score r_winner fst snd Nat.add].
  split; [exact E|]. split; [rewrite Hl; apply Nat.eqb_refl|]. split; [|reflexivity].
  intros r [Hr|Hr]; apply mapi_from_In in Hr; destruct Hr as (k & a & Hk & ->); cbn; apply Nat.eqb_neq.
  - assert (k < List.length pre) by (apply nth_error_Some; congruence). lia.
  - lia.
Qed.

Lemma canon_In L d c r :
  In r (canon_rows L d c) ->
  r_uid r = c_uid c /\ r_datum r = Z.of_nat d /\ r_gt_label r = c_groundtruth c
  /\ r_gt r = idx L (c_groundtruth c) /\ r_pd r = idx L (r_pd_label r)
  /\ In (r_pd_label r, r_score r) (candidates c)
  /\ r_match r = String.eqb (c_groundtruth c) (r_pd_label r).
Proof.
  intros H. unfold canon_rows, mapi in H. apply mapi_from_In in H.
  destruct H as (k & [l s] & Hk & ->). cbn. repeat split; auto. eapply nth_error_In; eauto.
Qed.

Lemma canon_In_conv L d c l s :
  In (l, s) (candidates c) ->
  exists r, In r (canon_rows L d c) /\ r_pd_label r = l /\ r_score r = s.
Proof.
  intros H. apply In_nth_error in H. destruct H as (k & Hk).
  exists (canon_row L d c (argmax (c_scores c)) k (l, s)). split; [|auto].
  unfold canon_rows, mapi. apply mapi_from_In. exists k, (l, s). auto.
Qed.
