(* The points of one label's ROC curve and the area under every split of them. *)
From Verif Require Import Prelude Counting CacheModel CacheSpec CacheProofs SortProofs ClsModel ClsSpec
  RocModel RocProofs RocMain FlowModel FlowProofs FlowMore.
From Coq Require Import QArith.
Local Open Scope nat_scope.
Local Open Scope list_scope.

(* every point but the first is not the origin *)
Definition started (st : rocst) : Prop := 0 < k_fp st + k_tp st.
Lemma bump_started st r : started (bump st r).
Proof. unfold started, bump. cbn. destruct (i_match r); cbn; lia. Qed.
Lemma emit_started st r : started st -> Forall nonzero_pt (emit st r).
Proof.
  intros H. unfold emit. destruct (k_score st =? i_score r)%Z; constructor; [|constructor].
  unfold nonzero_pt, started in *. intros E. injection E as E1 E2. lia.
Qed.
Lemma scan_started rows : forall st, started st -> Forall nonzero_pt (snd (scan st rows)) /\ started (fst (scan st rows)).
Proof.
  induction rows as [|r t IH]; intros st H; [cbn; auto|]. cbn [scan]. destruct (scan (bump st r) t) as [st' pts] eqn:E.
  destruct (IH (bump st r) (bump_started st r)) as [H1 H2]. rewrite E in H1, H2. cbn [fst snd] in *. split; [|exact H2].
  apply Forall_app. split; [apply emit_started; exact H|exact H1].
Qed.
Lemma final_started st : started st -> Forall nonzero_pt (final_point st).
Proof.
  intros H. unfold final_point. destruct (_ && _); constructor; [|constructor]. unfold nonzero_pt, started in *. intros E. injection E as E1 E2. lia.
Qed.
Lemma label_curve_shape rows : rows <> [] -> exists p rest, label_curve rows = p :: rest /\ Forall nonzero_pt rest.
Proof.
  destruct rows as [|r t]; [congruence|]. intros _. unfold label_curve. cbn [scan].
  destruct (scan (bump rocst0 r) t) as [st' pts] eqn:E. cbn [fst snd].
  destruct (scan_started t (bump rocst0 r) (bump_started rocst0 r)) as [H1 H2]. rewrite E in H1, H2. cbn [fst snd] in *.
  pose proof (final_started st' H2) as H3.
  unfold emit. cbn [rocst0 k_score k_fp k_tp]. destruct (0 =? i_score r)%Z eqn:Es; cbn [app].
  - (* the first score is zero: no origin *)
    assert (Hall : Forall nonzero_pt (pts ++ final_point st')) by (apply Forall_app; auto).
    destruct (pts ++ final_point st') as [|p rest] eqn:Ep.
    + exfalso. apply app_eq_nil in Ep. destruct Ep as [-> Ef]. unfold final_point in Ef.
      pose proof (scan_state (bump rocst0 r) t) as Hst. rewrite E in Hst. cbn [fst snd] in Hst. rewrite Hst in Ef. cbn in Ef.
      unfold bump, emit in Ef. cbn in Ef.
      assert (Es0 : i_score r = 0%Z) by (apply Z.eqb_eq in Es; congruence). rewrite Es0 in Ef. cbn in Ef.
      destruct (i_match r); cbn in Ef; rewrite ?andb_false_r in Ef; discriminate.
    + exists p, rest. split; [reflexivity|]. inversion Hall; auto.
  - exists (0, 0), (pts ++ final_point st'). split; [reflexivity|]. apply Forall_app; auto.
Qed.

(* ------------------------------------------------------------------ *)
(** * The reported value *)

(* the area the code computes from the points of a label: 0 without candidates *)
Definition label_area (gtc pdc : Z) (pts : list (nat * nat)) : Q := if (pdc =? 0)%Z then 0%Q else trap gtc pdc pts.

Lemma area_single gtc pdc i f : (rocauc_label gtc pdc i [f] == label_area gtc pdc (points_of i f))%Q.
Proof.
  unfold rocauc_label, label_area. cbn [map fold_left]. unfold rocauc_step. destruct (points_of i f) as [|p [|q t]] eqn:E.
  - cbn. destruct (pdc =? 0)%Z; reflexivity.
  - destruct (pdc =? 0)%Z; [reflexivity|]. cbn. reflexivity.
  - destruct (pdc =? 0)%Z; [reflexivity|]. cbn [Nat.ltb Nat.leb orb length Nat.eqb fst snd]. unfold trap, scale_pt. ring.
Qed.

(* SPEC: no file of the curve holds only the origin of the label's points, or the curve
   is held in one piece *)
Definition origin_kept (i : nat) (files : list (list cpoint)) : Prop :=
  (exists f, files = [f]) \/ forall f, In f files -> points_of i f <> [(0, 0)].

Lemma area_files gtc pdc i files rows : origin_kept i files ->
  points_of i (concat files) = label_curve rows ->
  (rocauc_label gtc pdc i files == label_area gtc pdc (label_curve rows))%Q.
Proof.
  intros [(f & ->)|Ho] E.
  { cbn [concat] in E. rewrite app_nil_r in E. rewrite <- E. apply area_single. }
  unfold label_area. destruct (pdc =? 0)%Z eqn:Hpd.
  { rewrite rocauc_degenerate; [reflexivity|]. left. apply Z.eqb_eq. exact Hpd. }
  rewrite points_concat in E. destruct rows as [|r t].
  - unfold rocauc_label. change (label_curve []) with (@nil (nat * nat)) in E |- *. change (trap gtc pdc []) with 0%Q.
    assert (H : forall l : list (list (nat * nat)), concat l = [] -> fold_left (rocauc_step gtc pdc) l (0%Q, (0, 0)) = (0%Q, (0, 0))).
    { induction l as [|a l IH]; [reflexivity|]. cbn [concat]. intros X. apply app_eq_nil in X. destruct X as [-> X]. cbn [fold_left rocauc_step]. auto. }
    rewrite H by exact E. reflexivity.
  - destruct (label_curve_shape (r :: t) ltac:(discriminate)) as (p & rest & Ec & Hnz). rewrite Ec in *.
    unfold rocauc_label. apply (chunks_area gtc pdc Hpd _ p rest E Hnz).
    intros H. apply in_map_iff in H. destruct H as (f & E' & Hf). exact (Ho f Hf E').
Qed.

(* ------------------------------------------------------------------ *)
(** * Files holding only the origin *)

Section Any.
  Variables gtc pdc : Z.
  Hypothesis Hpd : (pdc =? 0)%Z = false.
  Local Notation tr := (trap gtc pdc).
  Local Notation st0 := (0%Q, (0, 0)).

  (* a chunk handled after nothing but the origin *)
  Lemma step_from_zero c : c <> [] -> exists area, rocauc_step gtc pdc st0 c = (area, last c (0, 0)) /\ (area == tr c)%Q.
  Proof.
    intros Hc. unfold rocauc_step. destruct c as [|x [|y t]]; [congruence| |].
    - rewrite Hpd. cbn. eexists. split; [reflexivity|]. reflexivity.
    - rewrite Hpd. cbn [Nat.ltb Nat.leb orb length Nat.eqb fst snd]. eexists. split; [reflexivity|]. unfold trap, scale_pt. ring.
  Qed.
  Lemma fold_from_zero chunks : Forall nonzero_pt (concat chunks) ->
    (fst (fold_left (rocauc_step gtc pdc) chunks st0) == tr (concat chunks))%Q.
  Proof.
    induction chunks as [|c t IH]; intros H; [reflexivity|]. cbn [concat] in *. destruct c as [|x c]; [exact (IH H)|].
    cbn [fold_left]. destruct (step_from_zero (x :: c) ltac:(discriminate)) as (area & -> & Ea).
    apply Forall_app in H. destruct H as [H1 H2]. assert (Hl : nonzero_pt (last (x :: c) (0, 0))).
    { rewrite Forall_forall in H1. apply H1. destruct (exists_last (l := x :: c) ltac:(discriminate)) as (l' & y & ->). rewrite last_last. apply in_or_app. right. left. reflexivity. }
    rewrite (fold_from_nonzero gtc pdc Hpd t _ _ Hl H2), Ea.
    destruct (exists_last (l := x :: c) ltac:(discriminate)) as (l' & y & E). rewrite E, last_last. rewrite trap_app. reflexivity.
  Qed.

  (* whatever the split: the area, or the area without its first trapezoid when a file
     holds only the origin *)
  Lemma chunks_area_any chunks p rest : concat chunks = p :: rest -> Forall nonzero_pt rest ->
    (fst (fold_left (rocauc_step gtc pdc) chunks st0) == tr (p :: rest))%Q
    \/ (p = (0, 0) /\ In [(0, 0)] chunks /\ (fst (fold_left (rocauc_step gtc pdc) chunks st0) == tr rest)%Q).
  Proof.
    intros E Hnz. assert (D : In [(0, 0)] chunks \/ ~ In [(0, 0)] chunks).
    { destruct (in_dec (list_eq_dec (fun a b : nat * nat => ltac:(decide equality; apply Nat.eq_dec))) [(0, 0)] chunks); auto. }
    destruct D as [D|D]; [|left; apply (chunks_area gtc pdc Hpd chunks p rest E Hnz D)].
    right. revert E D. induction chunks as [|c t IH]; intros E D; [destruct D|]. cbn [concat] in E. destruct c as [|x c].
    - destruct D as [D|D]; [discriminate|]. destruct (IH E D) as (H1 & H2 & H3). split; [exact H1|]. split; [right; exact H2|exact H3].
    - cbn [app] in E. assert (x = p /\ c ++ concat t = rest) as (-> & Er) by (split; congruence).
      assert (Hin : ~ In (0, 0) rest) by (intros H; rewrite Forall_forall in Hnz; exact (Hnz _ H eq_refl)).
      destruct D as [D|D].
      + injection D as -> ->. split; [reflexivity|]. split; [left; reflexivity|]. cbn [fold_left].
        assert (Es : rocauc_step gtc pdc st0 [(0, 0)] = st0) by (unfold rocauc_step; rewrite Hpd; reflexivity).
        rewrite Es. cbn [app] in Er. rewrite <- Er in *. apply fold_from_zero. exact Hnz.
      + exfalso. apply Hin. rewrite <- Er. apply in_or_app. right. apply in_concat. exists [(0, 0)]. split; [exact D|left; reflexivity].
  Qed.
End Any.

(* SPEC: no positive and negative candidate share the highest score *)
Definition unmixed_top (o : list (Z * bool)) : Prop :=
  forall s, (forall x, In x o -> (fst x <= s)%Z) -> ~ (In (s, true) o /\ In (s, false) o).

Definition axis_of (m : bool) (p : nat * nat) : nat := if m then fst p else snd p.
Lemma scan_head_axis m rows : forall st s, started st -> k_score st = s -> k_last st = (0, 0) -> axis_of m (k_fp st, k_tp st) = 0 ->
  (forall r, In r rows -> i_score r = s -> i_match r = m) ->
  exists q rest, snd (scan st rows) ++ final_point (fst (scan st rows)) = q :: rest /\ axis_of m q = 0.
Proof.
  induction rows as [|r t IH]; intros st s Hs Hk Hl Ha H.
  - cbn [scan fst snd app]. unfold final_point. rewrite Hl. cbn [fst snd].
    unfold started in Hs. destruct (Nat.eqb_spec 0 (k_fp st)) as [E1|N1], (Nat.eqb_spec 0 (k_tp st)) as [E2|N2]; cbn [andb]; try lia;
      eexists; eexists; (split; [reflexivity|exact Ha]).
  - cbn [scan]. destruct (scan (bump st r) t) as [st' pts] eqn:E. cbn [fst snd]. destruct (Z.eqb_spec (k_score st) (i_score r)) as [Es|Ns].
    + assert (Ee : emit st r = []) by (unfold emit; rewrite (proj2 (Z.eqb_eq _ _) Es); reflexivity). rewrite Ee. cbn [app].
      pose proof (IH (bump st r) s (bump_started st r)) as IH'. rewrite E in IH'. cbn [fst snd] in IH'. apply IH'.
      * unfold bump. cbn. congruence.
      * unfold bump. cbn [k_last]. rewrite Ee. exact Hl.
      * assert (Em : i_match r = m) by (apply H; [left; reflexivity|congruence]). unfold bump. cbn [k_fp k_tp]. rewrite Em.
        destruct m; cbn in *; lia.
      * intros r' Hr'. apply H. right. exact Hr'.
    + unfold emit. rewrite (proj2 (Z.eqb_neq _ _) Ns). cbn [app]. eexists. eexists. split; [reflexivity|exact Ha].
Qed.

Lemma curve_second rows rest : descending rows -> unmixed_top (map outc rows) -> label_curve rows = (0, 0) :: rest ->
  exists m, match rest with [] => True | q :: _ => axis_of m q = 0 end.
Proof.
  destruct rows as [|r t]; [discriminate|]. intros Hd Hu Hc. exists (i_match r).
  inversion Hd as [|? ? _ Hf]; subst. rewrite Forall_forall in Hf.
  assert (Hm : forall r', In r' t -> i_score r' = i_score r -> i_match r' = i_match r).
  { intros r' Hr' Es. destruct (Bool.bool_dec (i_match r') (i_match r)) as [E|N]; [exact E|]. exfalso.
    apply (Hu (i_score r)).
    - intros x Hx. apply in_map_iff in Hx. destruct Hx as (y & <- & [<-|Hy]); cbn; [lia|exact (Hf y Hy)].
    - assert (A : In (outc r) (map outc (r :: t))) by (left; reflexivity).
      assert (B : In (outc r') (map outc (r :: t))) by (right; apply in_map; exact Hr').
      unfold outc in A at 1, B at 1. rewrite Es in B. destruct (i_match r), (i_match r'); try congruence; auto. }
  unfold label_curve in Hc. cbn [scan] in Hc. destruct (scan (bump rocst0 r) t) as [st' pts] eqn:E. cbn [fst snd] in Hc.
  assert (Hs := bump_started rocst0 r).
  unfold emit in Hc. cbn [rocst0 k_score k_fp k_tp] in Hc. destruct (0 =? i_score r)%Z eqn:Es; cbn [app] in Hc.
  - exfalso. destruct (scan_started t (bump rocst0 r) Hs) as [H1 H2]. rewrite E in H1, H2. cbn [fst snd] in *.
    assert (Hall : Forall nonzero_pt (pts ++ final_point st')) by (apply Forall_app; auto using final_started).
    rewrite Hc in Hall. inversion Hall as [|? ? X _]; subst. apply X. reflexivity.
  - injection Hc as <-. destruct (scan_head_axis (i_match r) t (bump rocst0 r) (i_score r) Hs) as (q & rest' & Eq & Aq).
    + reflexivity.
    + unfold bump, emit. cbn [k_last rocst0 k_score k_fp k_tp]. rewrite Es. reflexivity.
    + unfold bump. cbn. destruct (i_match r); reflexivity.
    + exact Hm.
    + rewrite E in Eq. cbn [fst snd] in Eq. rewrite Eq. exact Aq.
Qed.

Lemma trap_flat gtc pdc m q rest : axis_of m q = 0 -> (trap gtc pdc ((0%nat, 0%nat) :: q :: rest) == trap gtc pdc (q :: rest))%Q.
Proof.
  intros H. rewrite trap_cons2. unfold scale_pt. cbn [fst snd].
  assert (R0 : forall z, (rate 0 z == 0)%Q) by (intros z; unfold rate; destruct (0 <? z)%Z; [unfold Qdiv; cbn; ring|reflexivity]).
  destruct q as [f t]. unfold axis_of in H. cbn [fst snd] in *. destruct m; rewrite H, !R0; unfold Qdiv; ring.
Qed.

(* every split reports the same value when the highest score is not shared by a positive
   and a negative *)
Lemma area_any_split gtc pdc i files rows : descending rows -> unmixed_top (map outc rows) ->
  points_of i (concat files) = label_curve rows ->
  (rocauc_label gtc pdc i files == label_area gtc pdc (label_curve rows))%Q.
Proof.
  intros Hd Hu E. unfold label_area. destruct (pdc =? 0)%Z eqn:Hpd.
  { rewrite rocauc_degenerate; [reflexivity|]. left. apply Z.eqb_eq. exact Hpd. }
  destruct rows as [|r t].
  - destruct (in_dec Nat.eq_dec 0 []) as [[]|_]. rewrite (area_files gtc pdc i files []); [unfold label_area; rewrite Hpd; reflexivity| |exact E].
    right. intros f Hf Ef. rewrite points_concat in E. assert (In (0, 0) (concat (map (points_of i) files))).
    { apply in_concat. exists [(0, 0)]. split; [apply in_map_iff; eauto|left; reflexivity]. }
    rewrite E in H. destruct H.
  - destruct (label_curve_shape (r :: t) ltac:(discriminate)) as (p & rest & Ec & Hnz).
    rewrite points_concat, Ec in E. unfold rocauc_label. rewrite Ec.
    destruct (chunks_area_any gtc pdc Hpd _ p rest E Hnz) as [H|(-> & _ & H)]; [exact H|]. rewrite H.
    destruct (curve_second (r :: t) rest Hd Hu Ec) as (m & Hm). destruct rest as [|q rest']; [reflexivity|].
    symmetry. apply (trap_flat gtc pdc m q rest' Hm).
Qed.

Lemma unmixed_perm o o' : Permutation o o' -> unmixed_top o -> unmixed_top o'.
Proof.
  intros P H s Hs [A B]. apply Permutation_sym in P. apply (H s); [intros x Hx; apply Hs; exact (Permutation_in _ (Permutation_sym P) Hx)|].
  split; eapply Permutation_in; eauto.
Qed.
Lemma area_safe gtc pdc i files rows : descending rows -> origin_kept i files \/ unmixed_top (map outc rows) ->
  points_of i (concat files) = label_curve rows ->
  (rocauc_label gtc pdc i files == label_area gtc pdc (label_curve rows))%Q.
Proof. intros Hd [H|H] E; [exact (area_files gtc pdc i files rows H E)|exact (area_any_split gtc pdc i files rows Hd H E)]. Qed.
