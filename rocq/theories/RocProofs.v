(* Proofs about the ROC curve and ROCAUC. *)
From Verif Require Import Prelude CacheModel CacheSpec Counting ClsModel ClsSpec ClsLabelProofs ClsProofs RocModel.
From Coq Require Import QArith Lqa.
Local Open Scope nat_scope.
Local Open Scope list_scope.

(* ------------------------------------------------------------------ *)
(** * Element-wise form of the per-table step *)

Definition b2n (b : bool) : nat := if b then 1 else 0.

Definition emit (st : rocst) (r : irow) : list (nat * nat) :=
  if (k_score st =? i_score r)%Z then [] else [(k_fp st, k_tp st)].
Definition bump (st : rocst) (r : irow) : rocst :=
  MkRoc (k_fp st + b2n (negb (i_match r))) (k_tp st + b2n (i_match r)) (i_score r)
        (last (emit st r) (k_last st)).
Fixpoint scan (st : rocst) (rows : list irow) : rocst * list (nat * nat) :=
  match rows with
  | [] => (st, [])
  | r :: t => let '(st', pts) := scan (bump st r) t in (st', emit st r ++ pts)
  end.

Lemma last_nonempty {A} (l : list A) d d' : l <> [] -> last l d = last l d'.
Proof.
  induction l as [|x t IH]; [congruence|]. intros _. destruct t; [reflexivity|]. cbn. apply IH. discriminate.
Qed.
Lemma last_cons {A} (x : A) t d : last (x :: t) d = last t x.
Proof. destruct t as [|y t]; [reflexivity|]. cbn [last]. apply (last_nonempty (y :: t)). discriminate. Qed.
Lemma last_app_ne {A} (a b : list A) d : b <> [] -> last (a ++ b) d = last b d.
Proof.
  intros H. induction a as [|x t IH]; [reflexivity|]. cbn.
  destruct (t ++ b) eqn:E; [destruct t; cbn in E; congruence|exact IH].
Qed.
Lemma last_app {A} (a b : list A) d : last (a ++ b) d = last b (last a d).
Proof.
  destruct b as [|x b]; [rewrite app_nil_r; reflexivity|].
  rewrite last_app_ne by discriminate. apply last_nonempty. discriminate.
Qed.

Lemma cumulative_cons acc l d : last (cumulative acc l) d = acc + countb (fun b => b) l.
Proof.
  revert acc. induction l as [|b t IH]; intros acc; [cbn; lia|].
  change (cumulative acc (b :: t)) with (acc :: cumulative (acc + if b then 1 else 0) t).
  assert (N : cumulative (acc + if b then 1 else 0) t <> []) by (destruct t; discriminate).
  destruct (cumulative (acc + if b then 1 else 0) t) eqn:E; [congruence|].
  change (last (n :: l) d = acc + countb (fun b => b) (b :: t)).
  rewrite <- E, IH. unfold countb. cbn. destruct b; cbn; lia.
Qed.

Definition step_pts (st : rocst) (rows : list irow) : list (nat * nat) :=
  map snd (filter fst (combine
    (map (fun ab => negb (fst ab =? snd ab)%Z) (combine (k_score st :: map i_score rows) (map i_score rows)))
    (combine (cumulative (k_fp st) (map negb (map i_match rows))) (cumulative (k_tp st) (map i_match rows))))).

Lemma step_pts_cons st r t :
  step_pts st (r :: t) = emit st r ++ step_pts (bump st r) t.
Proof.
  unfold step_pts, emit. cbn [map combine cumulative k_score k_fp k_tp bump fst snd].
  cbn [filter fst]. destruct (k_score st =? i_score r)%Z; cbn [negb filter fst map snd app]; reflexivity.
Qed.

Lemma scan_pts st rows : snd (scan st rows) = step_pts st rows.
Proof.
  revert st. induction rows as [|r t IH]; intros st; [reflexivity|].
  rewrite step_pts_cons, <- IH. cbn. destruct (scan (bump st r) t). reflexivity.
Qed.

Lemma scan_state st rows :
  fst (scan st rows)
  = MkRoc (k_fp st + countb (fun r => negb (i_match r)) rows) (k_tp st + countb i_match rows)
          (last (map i_score rows) (k_score st)) (last (snd (scan st rows)) (k_last st)).
Proof.
  revert st. induction rows as [|r t IH]; intros st.
  - cbn. rewrite !Nat.add_0_r. destruct st; reflexivity.
  - cbn [scan]. specialize (IH (bump st r)). destruct (scan (bump st r) t) as [st' pts]. cbn [fst snd] in *.
    rewrite IH. unfold bump. cbn [k_fp k_tp k_score k_last]. rewrite last_app. f_equal.
    + unfold countb. cbn. destruct (i_match r); cbn; lia.
    + unfold countb. cbn. destruct (i_match r); cbn; lia.
    + symmetry. apply last_cons.
Qed.

Lemma roc_label_step_scan st rows : roc_label_step st rows = scan st rows.
Proof.
  destruct rows as [|r t]; [reflexivity|].
  rewrite (surjective_pairing (scan st (r :: t))). rewrite scan_state, scan_pts.
  unfold roc_label_step. fold (step_pts st (r :: t)). f_equal. f_equal.
  - rewrite cumulative_cons. f_equal. rewrite !countb_map. reflexivity.
  - rewrite cumulative_cons. f_equal. rewrite !countb_map. reflexivity.
  - apply last_nonempty. discriminate.
Qed.

Lemma scan_app st a b :
  scan st (a ++ b) = (fst (scan (fst (scan st a)) b), snd (scan st a) ++ snd (scan (fst (scan st a)) b)).
Proof.
  revert st. induction a as [|r t IH]; intros st; cbn [app scan fst snd].
  - apply surjective_pairing.
  - rewrite IH. destruct (scan (bump st r) t) as [s p]. cbn [fst snd].
    rewrite app_assoc. reflexivity.
Qed.

(* ------------------------------------------------------------------ *)
(** * Projection of the whole curve on one label *)

Definition of_label (i : nat) (t : list irow) : list irow := filter (fun r => (i_label r =? Z.of_nat i)%Z) t.

Lemma points_of_app i a b : points_of i (a ++ b) = points_of i a ++ points_of i b.
Proof. unfold points_of. rewrite filter_app, map_app. reflexivity. Qed.
Lemma points_of_tag i j pts : points_of i (map (fun p => (j, p)) pts) = if Nat.eqb j i then pts else [].
Proof.
  unfold points_of. induction pts as [|p t IH]; cbn; [destruct (Nat.eqb j i); reflexivity|].
  destruct (Nat.eqb j i) eqn:E; cbn; [f_equal|]; exact IH.
Qed.

Lemma roc_labels_proj keys t : forall st i, NoDup keys ->
  fst (roc_labels keys t st) i = (if in_dec Nat.eq_dec i keys then fst (scan (st i) (of_label i t)) else st i)
  /\ points_of i (snd (roc_labels keys t st))
     = (if in_dec Nat.eq_dec i keys then snd (scan (st i) (of_label i t)) else []).
Proof.
  induction keys as [|j ks IH]; intros st i Hn; [split; reflexivity|].
  inversion Hn as [|? ? Hj Hks]; subst. cbn [roc_labels].
  fold (of_label j t). rewrite roc_label_step_scan.
  destruct (scan (st j) (of_label j t)) as [s' pts] eqn:E.
  specialize (IH (upd st j s') i Hks). destruct (roc_labels ks t (upd st j s')) as [st' rest].
  cbn [fst snd] in *. rewrite points_of_app, points_of_tag. destruct IH as [IH1 IH2]. rewrite IH1, IH2.
  unfold upd. destruct (Nat.eqb_spec i j) as [->|N].
  - destruct (in_dec Nat.eq_dec j ks); [contradiction|].
    destruct (in_dec Nat.eq_dec j (j :: ks)) as [_|n0]; [|exfalso; apply n0; left; reflexivity].
    rewrite Nat.eqb_refl, E, app_nil_r. auto.
  - replace (Nat.eqb j i) with false by (symmetry; apply Nat.eqb_neq; auto). cbn [app].
    destruct (in_dec Nat.eq_dec i ks) as [Hi|Hi]; destruct (in_dec Nat.eq_dec i (j :: ks)) as [Hi'|Hi']; auto.
    + exfalso; apply Hi'; right; exact Hi.
    + destruct Hi' as [->|Hi']; contradiction.
Qed.

Lemma roc_tables_proj keys ts : forall st i, NoDup keys -> In i keys ->
  fst (roc_tables keys ts st) i = fst (scan (st i) (of_label i (concat ts)))
  /\ points_of i (snd (roc_tables keys ts st)) = snd (scan (st i) (of_label i (concat ts))).
Proof.
  induction ts as [|t ts IH]; intros st i Hn Hi; [split; reflexivity|].
  cbn [roc_tables]. pose proof (roc_labels_proj keys t st i Hn) as [H1 H2].
  destruct (roc_labels keys t st) as [st1 p1]. specialize (IH st1 i Hn Hi).
  destruct (roc_tables keys ts st1) as [st2 p2]. cbn [fst snd] in *.
  destruct (in_dec Nat.eq_dec i keys); [|contradiction]. destruct IH as [I1 I2].
  cbn [concat]. unfold of_label. rewrite filter_app. fold (of_label i t). fold (of_label i (concat ts)).
  rewrite scan_app. cbn [fst snd]. rewrite points_of_app, H2, I1, I2, H1. auto.
Qed.

(* the curve of one label *)
Definition label_curve (rows : list irow) : list (nat * nat) :=
  snd (scan rocst0 rows) ++ final_point (fst (scan rocst0 rows)).

Lemma points_of_finals i st n m :
  points_of i (concat (map (fun j => map (fun p => (j, p)) (final_point (st j))) (seq m n)))
  = if (m <=? i) && (i <? m + n) then final_point (st i) else [].
Proof.
  revert m. induction n as [|n IH]; intros m; cbn [seq map concat].
  - change (@nil (nat * nat) = if (m <=? i) && (i <? m + 0) then final_point (st i) else []).
    destruct (Nat.leb_spec m i), (Nat.ltb_spec i (m + 0)); cbn [andb]; try reflexivity. lia.
  - rewrite points_of_app, points_of_tag, IH. destruct (Nat.eqb_spec m i) as [->|N].
    + destruct (Nat.leb_spec (S i) i); [lia|]. cbn [andb]. rewrite app_nil_r.
      destruct (Nat.leb_spec i i), (Nat.ltb_spec i (i + S n)); try lia. reflexivity.
    + destruct (Nat.leb_spec (S m) i), (Nat.ltb_spec i (S m + n)), (Nat.leb_spec m i), (Nat.ltb_spec i (m + S n)); cbn [andb app]; try reflexivity; lia.
Qed.

Theorem curve_of_label keys ts i :
  NoDup keys -> In i keys -> i < length keys ->
  points_of i (roc_curve keys ts) = label_curve (of_label i (concat ts)).
Proof.
  intros Hn Hi Hl. unfold roc_curve. pose proof (roc_tables_proj keys ts (fun _ => rocst0) i Hn Hi) as [H1 H2].
  destruct (roc_tables keys ts (fun _ => rocst0)) as [st pts]. cbn [fst snd] in *.
  rewrite points_of_app, H2, points_of_finals. unfold label_curve. cbn [andb Nat.leb Nat.add].
  replace (i <? length keys) with true by (symmetry; apply Nat.ltb_lt; exact Hl).
  rewrite H1. reflexivity.
Qed.

(* ------------------------------------------------------------------ *)
(** * Area under the curve *)

(* twice the area, in integers *)
Fixpoint area2 (pts : list (nat * nat)) : Z :=
  match pts with
  | a :: t => match t with
              | b :: _ => ((Z.of_nat (fst b) - Z.of_nat (fst a)) * (Z.of_nat (snd a) + Z.of_nat (snd b)) + area2 t)%Z
              | [] => 0%Z
              end
  | [] => 0%Z
  end.

Lemma area2_cons2 x y t :
  area2 (x :: y :: t)
  = ((Z.of_nat (fst y) - Z.of_nat (fst x)) * (Z.of_nat (snd x) + Z.of_nat (snd y)) + area2 (y :: t))%Z.
Proof. reflexivity. Qed.

Lemma area2_snoc pts a b :
  area2 ((pts ++ [a]) ++ [b])
  = (area2 (pts ++ [a]) + (Z.of_nat (fst b) - Z.of_nat (fst a)) * (Z.of_nat (snd a) + Z.of_nat (snd b)))%Z.
Proof.
  induction pts as [|x t IH]; [cbn; lia|].
  destruct t as [|y t]; [cbn; lia|].
  change (((x :: y :: t) ++ [a]) ++ [b]) with (x :: y :: ((t ++ [a]) ++ [b])).
  change ((x :: y :: t) ++ [a]) with (x :: y :: (t ++ [a])).
  rewrite !area2_cons2. change (y :: (t ++ [a]) ++ [b]) with (((y :: t) ++ [a]) ++ [b]).
  rewrite IH. change (y :: t ++ [a]) with ((y :: t) ++ [a]). lia.
Qed.

(* Mann-Whitney statistic and appending one outcome *)
Lemma zsum_app a b : zsum (a ++ b) = (zsum a + zsum b)%Z.
Proof. induction a as [|x t IH]; cbn; [reflexivity|]. fold (zsum (t ++ b)). rewrite IH. unfold zsum. lia. Qed.
Lemma zsum_ext {A} (f g : A -> Z) l : (forall x, In x l -> f x = g x) -> zsum (map f l) = zsum (map g l).
Proof.
  induction l as [|x t IH]; intros H; [reflexivity|]. cbn. fold (zsum (map f t)). fold (zsum (map g t)).
  rewrite IH by (intros; apply H; right; auto). rewrite (H x) by (left; auto). reflexivity.
Qed.
Lemma zsum_perm a b : Permutation a b -> zsum a = zsum b.
Proof. induction 1; cbn; unfold zsum in *; lia. Qed.
Lemma zsum_add {A} (f g : A -> Z) l : zsum (map (fun x => (f x + g x)%Z) l) = (zsum (map f l) + zsum (map g l))%Z.
Proof. induction l as [|x t IH]; cbn; [reflexivity|]. unfold zsum in *. lia. Qed.

Lemma mw_snoc_neg o s :
  twice_mann_whitney (o ++ [(s, false)])
  = (twice_mann_whitney o + zsum (map (fun p => pair_score p s) (pos_of o)))%Z.
Proof.
  unfold twice_mann_whitney, pos_of, neg_of. rewrite !filter_app. cbn [filter snd negb]. rewrite app_nil_r, map_app.
  cbn [map fst]. rewrite <- zsum_add. apply zsum_ext. intros p _. rewrite map_app, zsum_app. cbn. lia.
Qed.
Lemma mw_snoc_pos o s :
  twice_mann_whitney (o ++ [(s, true)])
  = (twice_mann_whitney o + zsum (map (pair_score s) (neg_of o)))%Z.
Proof.
  unfold twice_mann_whitney, pos_of, neg_of. rewrite !filter_app. cbn [filter snd negb]. rewrite app_nil_r, map_app.
  cbn [map fst]. rewrite map_app, zsum_app. cbn. lia.
Qed.

Definition outc (r : irow) : Z * bool := (i_score r, i_match r).

(* scan invariant: [done] are the rows processed so far *)
Record inv (done : list irow) (st : rocst) (pts : list (nat * nat)) (f0 t0 : nat) : Prop := {
  inv_pts : exists pre, pts = pre ++ [(f0, t0)];
  inv_first : hd (1, 1) pts = (0, 0);
  inv_nz : Forall (fun p => p <> (0, 0)) (tl pts);
  inv_last : k_last st = (f0, t0);
  inv_lt : f0 + t0 < k_fp st + k_tp st;
  inv_le : f0 <= k_fp st /\ t0 <= k_tp st;
  inv_fp : k_fp st = countb (fun r => negb (i_match r)) done;
  inv_tp : k_tp st = countb i_match done;
  inv_ge : forall r, In r done -> (k_score st <= i_score r)%Z;
  inv_f0 : f0 = countb (fun r => negb (i_match r) && (k_score st <? i_score r)%Z) done;
  inv_t0 : t0 = countb (fun r => i_match r && (k_score st <? i_score r)%Z) done;
  inv_area : (area2 pts + (Z.of_nat (k_fp st) - Z.of_nat f0) * (Z.of_nat t0 + Z.of_nat (k_tp st)))%Z
             = twice_mann_whitney (map outc done)
}.

(* contribution of a new last element *)
Lemma contrib_neg done s :
  (forall r, In r done -> (s <= i_score r)%Z) ->
  zsum (map (fun p => pair_score p s) (pos_of (map outc done)))
  = (Z.of_nat (countb i_match done) + Z.of_nat (countb (fun r => i_match r && (s <? i_score r)%Z) done))%Z.
Proof.
  intros H. induction done as [|r t IH]; [reflexivity|].
  specialize (IH (fun r Hr => H r (or_intror Hr))). pose proof (H r (or_introl eq_refl)) as Hr.
  unfold pos_of, countb, outc, pair_score in *. cbn [map filter snd].
  destruct (i_match r); cbn [map fst filter andb zsum fold_right length].
  - destruct (Z.ltb_spec s (i_score r)); cbn [length]; unfold zsum in *.
    + lia.
    + assert (E : (s =? i_score r)%Z = true) by lia. rewrite E. lia.
  - exact IH.
Qed.
Lemma contrib_pos done s :
  (forall r, In r done -> (s <= i_score r)%Z) ->
  zsum (map (pair_score s) (neg_of (map outc done)))
  = (Z.of_nat (countb (fun r => negb (i_match r)) done)
     - Z.of_nat (countb (fun r => negb (i_match r) && (s <? i_score r)%Z) done))%Z.
Proof.
  intros H. induction done as [|r t IH]; [reflexivity|].
  specialize (IH (fun r Hr => H r (or_intror Hr))). pose proof (H r (or_introl eq_refl)) as Hr.
  unfold neg_of, countb, outc, pair_score in *. cbn [map filter snd].
  destruct (i_match r); cbn [negb map fst filter andb zsum fold_right length].
  - exact IH.
  - assert (E0 : (i_score r <? s)%Z = false) by lia. rewrite E0.
    destruct (Z.ltb_spec s (i_score r)) as [Hlt|Hge]; cbn [length]; unfold zsum in *.
    + assert (E1 : (i_score r =? s)%Z = false) by lia. rewrite E1. lia.
    + assert (E1 : (i_score r =? s)%Z = true) by lia. rewrite E1. lia.
Qed.

Lemma countb_snoc {A} (f : A -> bool) l x : countb f (l ++ [x]) = countb f l + (if f x then 1 else 0).
Proof. rewrite countb_app. unfold countb at 2. cbn. destruct (f x); reflexivity. Qed.

Lemma inv_step done st pts f0 t0 r :
  inv done st pts f0 t0 -> (i_score r <= k_score st)%Z ->
  exists f0' t0', inv (done ++ [r]) (bump st r) (pts ++ emit st r) f0' t0'.
Proof.
  intros [(pre & Hpre) Hf Hnz Hlast Hlt [Hle1 Hle2] Hfp Htp Hge Hf0 Ht0 Harea] Hr.
  unfold emit, bump. destruct (Z.eqb_spec (k_score st) (i_score r)) as [E|N].
  - (* same score *)
    exists f0, t0. rewrite app_nil_r.
    assert (Hge' : forall r', In r' done -> (i_score r <= i_score r')%Z) by (intros r' H'; apply Hge in H'; lia).
    constructor; cbn [k_fp k_tp k_score k_last].
    + exists pre; exact Hpre.
    + exact Hf.
    + exact Hnz.
    + unfold emit. rewrite E, Z.eqb_refl. cbn. exact Hlast.
    + destruct (i_match r); cbn; lia.
    + lia.
    + rewrite countb_snoc, Hfp. destruct (i_match r); reflexivity.
    + rewrite countb_snoc, Htp. destruct (i_match r); reflexivity.
    + intros r' H'. apply in_app_iff in H'. destruct H' as [H'|[<-|[]]]; [apply Hge'; exact H'|lia].
    + rewrite countb_snoc, Z.ltb_irrefl, andb_false_r, Nat.add_0_r, <- E. exact Hf0.
    + rewrite countb_snoc, Z.ltb_irrefl, andb_false_r, Nat.add_0_r, <- E. exact Ht0.
    + rewrite map_app. cbn [map]. unfold outc at 2. destruct (i_match r); cbn [negb b2n].
      * rewrite mw_snoc_pos, <- Harea, contrib_pos by exact Hge'. rewrite <- E, <- Hf0, <- Hfp. lia.
      * rewrite mw_snoc_neg, <- Harea, contrib_neg by exact Hge'. rewrite <- E, <- Ht0, <- Htp. lia.
  - (* new score *)
    assert (Hlt' : (i_score r < k_score st)%Z) by lia.
    assert (Hge' : forall r', In r' done -> (i_score r < i_score r')%Z) by (intros r' H'; apply Hge in H'; lia).
    exists (k_fp st), (k_tp st). constructor; cbn [k_fp k_tp k_score k_last].
    + exists pts. reflexivity.
    + subst pts. destruct pre as [|x pre]; cbn in *; exact Hf.
    + assert (Hne : pts <> []) by (subst; destruct pre; discriminate).
      destruct pts as [|x tlp]; [congruence|]. cbn [tl app] in *. apply Forall_app. split; [exact Hnz|].
      constructor; [|constructor]. intros [= H1 H2]. lia.
    + unfold emit. rewrite (proj2 (Z.eqb_neq _ _) N). reflexivity.
    + destruct (i_match r); cbn; lia.
    + lia.
    + rewrite countb_snoc, Hfp. destruct (i_match r); reflexivity.
    + rewrite countb_snoc, Htp. destruct (i_match r); reflexivity.
    + intros r' H'. apply in_app_iff in H'. destruct H' as [H'|[<-|[]]]; [apply Hge' in H'; lia|lia].
    + rewrite countb_snoc, Z.ltb_irrefl, andb_false_r, Nat.add_0_r, Hfp. apply countb_ext.
      intros r' H'. apply Hge' in H'. replace (i_score r <? i_score r')%Z with true by lia. rewrite andb_true_r. reflexivity.
    + rewrite countb_snoc, Z.ltb_irrefl, andb_false_r, Nat.add_0_r, Htp. apply countb_ext.
      intros r' H'. apply Hge' in H'. replace (i_score r <? i_score r')%Z with true by lia. rewrite andb_true_r. reflexivity.
    + rewrite map_app. cbn [map]. unfold outc at 2.
      assert (A2 : area2 (pts ++ [(k_fp st, k_tp st)]) = twice_mann_whitney (map outc done)).
      { rewrite Hpre, area2_snoc, <- Hpre. cbn [fst snd]. exact Harea. }
      assert (C1 : countb (fun r0 => negb (i_match r0) && (i_score r <? i_score r0)%Z) done = countb (fun r0 => negb (i_match r0)) done).
      { apply countb_ext. intros r' H'. apply Hge' in H'. replace (i_score r <? i_score r')%Z with true by lia. rewrite andb_true_r. reflexivity. }
      assert (C2 : countb (fun r0 => i_match r0 && (i_score r <? i_score r0)%Z) done = countb i_match done).
      { apply countb_ext. intros r' H'. apply Hge' in H'. replace (i_score r <? i_score r')%Z with true by lia. rewrite andb_true_r. reflexivity. }
      assert (Hge'' : forall r', In r' done -> (i_score r <= i_score r')%Z) by (intros r' H'; apply Hge' in H'; lia).
      rewrite A2. destruct (i_match r); cbn [negb b2n].
      * rewrite mw_snoc_pos, contrib_pos by exact Hge''. rewrite C1. lia.
      * rewrite mw_snoc_neg, contrib_neg by exact Hge''. rewrite C2, <- Htp. lia.
Qed.

Lemma inv_scan rest : forall done st pts f0 t0,
  inv done st pts f0 t0 ->
  StronglySorted (fun a b => (i_score b <= i_score a)%Z) rest ->
  (forall r, In r rest -> (i_score r <= k_score st)%Z) ->
  exists f0' t0', inv (done ++ rest) (fst (scan st rest)) (pts ++ snd (scan st rest)) f0' t0'.
Proof.
  induction rest as [|r t IH]; intros done st pts f0 t0 Hi Hs Hle.
  - exists f0, t0. rewrite !app_nil_r. exact Hi.
  - inversion Hs as [|? ? Hs' Hf]; subst. rewrite Forall_forall in Hf.
    destruct (inv_step done st pts f0 t0 r Hi (Hle r (or_introl eq_refl))) as (f1 & t1 & Hi1).
    destruct (IH _ _ _ _ _ Hi1 Hs') as (f2 & t2 & Hi2).
    + intros r' H'. cbn [bump k_score]. apply Hf; exact H'.
    + exists f2, t2. cbn [scan]. destruct (scan (bump st r) t) as [s p]. cbn [fst snd] in *.
      rewrite <- app_assoc in Hi2. cbn [app] in Hi2. rewrite <- app_assoc in Hi2. exact Hi2.
Qed.

Definition descending (rows : list irow) : Prop := StronglySorted (fun a b => (i_score b <= i_score a)%Z) rows.

(* the curve of a label whose highest score is not zero *)
Theorem label_curve_area rows r rest :
  rows = r :: rest -> descending rows -> i_score r <> 0%Z ->
  exists mid, label_curve rows = (0, 0) :: mid
    /\ mid <> [] /\ Forall (fun p => p <> (0, 0)) mid
    /\ area2 (label_curve rows) = twice_mann_whitney (map outc rows)
    /\ last mid (0, 0) = (countb (fun r => negb (i_match r)) rows, countb i_match rows).
Proof.
  intros -> Hs Hne. inversion Hs as [|? ? Hs' Hf]; subst. rewrite Forall_forall in Hf.
  assert (I0 : inv [r] (bump rocst0 r) (emit rocst0 r) 0 0).
  { unfold emit, bump. cbn [k_score rocst0]. replace (0 =? i_score r)%Z with false by lia.
    constructor; cbn [k_fp k_tp k_score k_last rocst0].
    - exists []. reflexivity.
    - reflexivity.
    - constructor.
    - unfold emit. cbn [k_score rocst0]. replace (0 =? i_score r)%Z with false by lia. reflexivity.
    - destruct (i_match r); cbn; lia.
    - lia.
    - unfold countb. cbn. destruct (i_match r); reflexivity.
    - unfold countb. cbn. destruct (i_match r); reflexivity.
    - intros r' [<-|[]]. lia.
    - unfold countb. cbn. rewrite Z.ltb_irrefl, andb_false_r. reflexivity.
    - unfold countb. cbn. rewrite Z.ltb_irrefl, andb_false_r. reflexivity.
    - unfold outc, twice_mann_whitney, pos_of, neg_of. cbn. destruct (i_match r); cbn; reflexivity. }
  destruct (inv_scan rest _ _ _ _ _ I0 Hs') as (f0 & t0 & [(pre & Hpre) Hfst Hnz Hlast Hlt Hle Hfp Htp Hge Hf0 Ht0 Harea]).
  { intros r' H'. cbn. apply Hf; exact H'. }
  unfold label_curve. cbn [scan]. destruct (scan (bump rocst0 r) rest) as [st p]. cbn [fst snd] in *.
  unfold final_point. rewrite Hlast. cbn [fst snd].
  assert (E : Nat.eqb f0 (k_fp st) && Nat.eqb t0 (k_tp st) = false).
  { destruct (Nat.eqb_spec f0 (k_fp st)), (Nat.eqb_spec t0 (k_tp st)); cbn; try reflexivity. lia. }
  rewrite E. set (pts := emit rocst0 r ++ p) in *.
  assert (Hp0 : pts = (0, 0) :: tl pts).
  { destruct pts as [|x l]; [destruct pre; discriminate|]. cbn in Hfst. subst x. reflexivity. }
  exists (tl pts ++ [(k_fp st, k_tp st)]). split; [|split; [|split; [|split]]].
  - rewrite Hp0 at 1. reflexivity.
  - destruct (tl pts); discriminate.
  - apply Forall_app. split; [exact Hnz|]. constructor; [|constructor]. intros [= H1 H2]. lia.
  - rewrite Hpre, area2_snoc, <- Hpre. cbn [fst snd]. exact Harea.
  - rewrite last_last. rewrite Hfp, Htp. reflexivity.
Qed.

(* ------------------------------------------------------------------ *)
(** * Trapezoids over chunks *)

Local Open Scope Q_scope.
Section Chunks.
  Variables gtc pdc : Z.
  Hypothesis Hpd : (pdc =? 0)%Z = false.
  Let neg := ((pdc - gtc) mod (2 ^ 64))%Z.
  Definition scale_pt (p : nat * nat) : Q * Q := (rate (fst p) neg, rate (snd p) gtc).
  Definition trap (pts : list (nat * nat)) : Q := trapezoid (map scale_pt pts).

  Lemma trap_cons2 a b t : trap (a :: b :: t) = (fst (scale_pt b) - fst (scale_pt a)) * (snd (scale_pt a) + snd (scale_pt b)) / 2 + trap (b :: t).
  Proof. reflexivity. Qed.

  Lemma trap_app a l1 l2 : trap ((l1 ++ [a]) ++ l2) == trap (l1 ++ [a]) + trap (a :: l2).
  Proof.
    induction l1 as [|x t IH]; intros.
    - cbn [app]. unfold trap at 2. cbn. ring.
    - destruct t as [|y t].
      + cbn [app] in *. rewrite (trap_cons2 x a l2), (trap_cons2 x a []).
        change (trap [a]) with 0. ring.
      + change (((x :: y :: t) ++ [a]) ++ l2) with (x :: y :: ((t ++ [a]) ++ l2)).
        change ((x :: y :: t) ++ [a]) with (x :: y :: (t ++ [a])).
        rewrite !trap_cons2. change (y :: (t ++ [a]) ++ l2) with (((y :: t) ++ [a]) ++ l2). rewrite IH.
        change ((y :: t) ++ [a]) with (y :: (t ++ [a])). ring.
  Qed.

  Definition nonzero_pt (p : nat * nat) : Prop := p <> (0%nat, 0%nat).
  Lemma nonzero_test p : nonzero_pt p -> Nat.ltb 0 (fst p) || Nat.ltb 0 (snd p) = true.
  Proof. destruct p as [[|a] [|b]]; intros H; try reflexivity. exfalso. apply H. reflexivity. Qed.

  Lemma step_from_nonzero area prev c :
    nonzero_pt prev -> c <> [] ->
    exists area', rocauc_step gtc pdc (area, prev) c = (area', last c (0%nat, 0%nat)) /\ area' == area + trap (prev :: c).
  Proof.
    intros Hp Hc. unfold rocauc_step. destruct c as [|x t]; [congruence|]. rewrite Hpd.
    rewrite (nonzero_test prev Hp). cbv zeta. cbn [length Nat.eqb].
    eexists. split.
    - reflexivity.
    - reflexivity.
  Qed.

  Lemma fold_from_nonzero chunks : forall area prev,
    nonzero_pt prev -> Forall nonzero_pt (concat chunks) ->
    fst (fold_left (rocauc_step gtc pdc) chunks (area, prev)) == area + trap (prev :: concat chunks).
  Proof.
    induction chunks as [|c cs IH]; intros area prev Hp Hn.
    - cbn. unfold trap. cbn. ring.
    - cbn [fold_left concat]. cbn [concat] in Hn. apply Forall_app in Hn. destruct Hn as [Hn1 Hn2].
      destruct c as [|x t].
      + cbn [rocauc_step app]. apply IH; assumption.
      + destruct (step_from_nonzero area prev (x :: t) Hp ltac:(discriminate)) as (area' & E & Ea).
        rewrite E. destruct (exists_last (l := x :: t) ltac:(discriminate)) as (l1 & a & El).
        rewrite IH; [|rewrite El, last_last; rewrite El in Hn1; apply Forall_app in Hn1; destruct Hn1 as [_ Hn1]; inversion Hn1; assumption|exact Hn2].
        rewrite El, last_last, Ea, El.
        change (prev :: (l1 ++ [a]) ++ concat cs) with (((prev :: l1) ++ [a]) ++ concat cs).
        rewrite trap_app. change ((prev :: l1) ++ [a]) with (prev :: l1 ++ [a]). ring.
  Qed.

  (* no chunk consists of the origin alone *)
  Theorem chunks_area chunks p rest :
    concat chunks = p :: rest -> Forall nonzero_pt rest ->
    ~ In [(0%nat, 0%nat)] chunks ->
    fst (fold_left (rocauc_step gtc pdc) chunks (0, (0%nat, 0%nat))) == trap (p :: rest).
  Proof.
    revert p rest. induction chunks as [|c cs IH]; intros p rest E Hn Hbad; [discriminate|].
    destruct c as [|x t].
    - cbn [fold_left rocauc_step]. apply IH; auto. intros H; apply Hbad; right; exact H.
    - cbn [concat app] in E. injection E as -> E.
      cbn [fold_left]. unfold rocauc_step at 2. rewrite Hpd. cbn [fst snd Nat.ltb Nat.leb orb].
      rewrite <- E in Hn. apply Forall_app in Hn. destruct Hn as [Hn1 Hn2].
      destruct t as [|y t].
      + cbn [length Nat.eqb last]. cbn [app] in E. rewrite fold_from_nonzero.
        * rewrite E. ring.
        * intros ->. apply Hbad. left. reflexivity.
        * exact Hn2.
      + cbn [length Nat.eqb].
        destruct (exists_last (l := y :: t) ltac:(discriminate)) as (l1 & a & El).
        rewrite fold_from_nonzero.
        * change (p :: y :: t) with ([p] ++ (y :: t)). rewrite El, app_assoc, last_last.
          rewrite El in E. rewrite <- E. change (p :: (l1 ++ [a]) ++ concat cs) with (((p :: l1) ++ [a]) ++ concat cs).
          rewrite trap_app. unfold trap, scale_pt, neg. rewrite <- app_assoc.
          change ([p] ++ l1 ++ [a]) with ((p :: l1) ++ [a]). ring.
        * change (p :: y :: t) with ([p] ++ (y :: t)). rewrite El, app_assoc, last_last.
          rewrite El in Hn1. apply Forall_app in Hn1. destruct Hn1 as [_ Hn1]. inversion Hn1; assumption.
        * exact Hn2.
  Qed.

  Lemma trap_area2 pts : (0 < neg)%Z -> (0 < gtc)%Z ->
    trap pts == inject_Z (area2 pts) / (2 * inject_Z neg * inject_Z gtc).
  Proof.
    intros Hneg Hgt.
    assert (N1 : ~ inject_Z neg == 0) by (intros H; apply (inject_Z_injective neg 0) in H; lia).
    assert (N2 : ~ inject_Z gtc == 0) by (intros H; apply (inject_Z_injective gtc 0) in H; lia).
    induction pts as [|a t IH]; [unfold trap; cbn; field; auto|].
    destruct t as [|b t]; [unfold trap; cbn; field; auto|].
    rewrite trap_cons2, IH.
    change (area2 (a :: b :: t)) with ((Z.of_nat (fst b) - Z.of_nat (fst a)) * (Z.of_nat (snd a) + Z.of_nat (snd b)) + area2 (b :: t))%Z.
    rewrite inject_Z_plus, inject_Z_mult, inject_Z_plus. unfold Z.sub. rewrite inject_Z_plus, inject_Z_opp.
    unfold scale_pt, rate. cbn [fst snd]. replace (0 <? neg)%Z with true by lia. replace (0 <? gtc)%Z with true by lia.
    field. auto.
  Qed.
End Chunks.
