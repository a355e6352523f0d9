(* The detection loader (C36) and well-formedness of what it stores. *)
From Verif Require Import Prelude Counting CacheModel CacheSpec ClsModel ClsSpec ClsLabelProofs DetModel DetSpec.
From Coq Require Import Lia String.
Local Open Scope nat_scope.
Local Open Scope list_scope.

(* ------------------------------------------------------------------ *)
(** * Emission as a list of items *)

Inductive item : Type :=
| ILabel (gl : string)
| IGt (g : nat) (ga : annotation) (gl : string)
| IPd (p : nat) (pa : annotation) (pl : string) (s : Z)
| IPair (g : nat) (ga : annotation) (gl : string) (p : nat) (pa : annotation) (pl : string) (s : Z).

Definition item_labels (x : item) : list string :=
  match x with
  | ILabel gl => [gl] | IGt _ _ gl => [gl] | IPd _ _ pl _ => [pl] | IPair _ _ gl _ _ pl _ => [gl; pl]
  end.

Lemma fold_left_flat {A B C} (f : C -> B -> C) (g : A -> list B) l : forall a,
  fold_left (fun a x => fold_left f (g x) a) l a = fold_left f (flat_map g l) a.
Proof. induction l as [|x t IH]; intros a; simpl; [reflexivity|]. rewrite fold_left_app. apply IH. Qed.

Lemma fold_left_map' {A B C} (f : C -> B -> C) (g : A -> B) l : forall a,
  fold_left (fun a x => f a (g x)) l a = fold_left f (map g l) a.
Proof. induction l as [|x t IH]; intros a; simpl; [reflexivity|apply IH]. Qed.

Lemma fold_left_ext {A C} (f g : C -> A -> C) l : (forall a x, f a x = g a x) -> forall a, fold_left f l a = fold_left g l a.
Proof. intros H. induction l as [|x t IH]; intros a; simpl; [reflexivity|]. rewrite H. apply IH. Qed.

Section DatumP.
  Variables (eps : Z) (det : detection) (datum gb pb : nat).

  Definition item_row (L : list string) (x : item) : list drow :=
    match x with
    | ILabel _ => []
    | IGt g ga gl =>
        [MkD (t_uid det) (Z.of_nat datum) (Some (a_uid ga)) (Z.of_nat (gb + g)) (Some gl) (idx L gl)
             None (-1) None (-1) (-1) 0 0]
    | IPd p pa pl s =>
        [MkD (t_uid det) (Z.of_nat datum) None (-1) None (-1)
             (Some (a_uid pa)) (Z.of_nat (pb + p)) (Some pl) (idx L pl) s 0 0]
    | IPair g ga gl p pa pl s =>
        [MkD (t_uid det) (Z.of_nat datum) (Some (a_uid ga)) (Z.of_nat (gb + g)) (Some gl) (idx L gl)
             (Some (a_uid pa)) (Z.of_nat (pb + p)) (Some pl) (idx L pl) s (t_iou det p g) 0]
    end.

  Definition proc (a : list string * list drow) (x : item) : list string * list drow :=
    let L := first_appearance (fst a) (item_labels x) in (L, snd a ++ item_row L x).

  Lemma idx_of_index L v i : index_of v L = Some i -> Z.of_nat i = idx L v.
  Proof. intros H. unfold idx. rewrite H. reflexivity. Qed.

  Lemma idx_extends L L' v : extends L L' -> In v L -> idx L v = idx L' v.
  Proof.
    intros He Hv. unfold idx. destruct (index_of v L) as [i|] eqn:E; [|apply index_of_None in E; contradiction].
    rewrite (extends_index _ _ _ _ He E). reflexivity.
  Qed.

  Definition pd_items (p : nat) (pa : annotation) : list item :=
    map (fun ls => IPd p pa (fst ls) (snd ls)) (combine (a_labels pa) (a_scores pa)).
  Definition pair_items (g : nat) (ga : annotation) (p : nat) (pa : annotation) : list item :=
    flat_map (fun gl => map (fun ls => IPair g ga gl p pa (fst ls) (snd ls)) (combine (a_labels pa) (a_scores pa))) (a_labels ga).
  Definition gt_pd_items (g : nat) (ga : annotation) : list item :=
    flat_map (fun ip : nat * annotation =>
      (if pd_alone eps det (fst ip) then pd_items (fst ip) (snd ip) else []) ++
      (if (eps <=? t_iou det (fst ip) g)%Z then pair_items g ga (fst ip) (snd ip) else [])) (enum (t_pds det)).
  Definition gt_items (ig : nat * annotation) : list item :=
    match a_labels (snd ig) with
    | [] => []
    | gl :: _ => (if gt_alone eps det (fst ig) then IGt (fst ig) (snd ig) gl else ILabel gl) :: gt_pd_items (fst ig) (snd ig)
    end.
  Definition items : list item :=
    match t_gts det with
    | _ :: _ => flat_map gt_items (enum (t_gts det))
    | [] => flat_map (fun ip => pd_items (fst ip) (snd ip)) (enum (t_pds det))
    end.

  Lemma emit_pd_proc p pa a : emit_pd det datum pb p pa a = fold_left proc (pd_items p pa) a.
  Proof.
    unfold emit_pd, pd_items. rewrite <- fold_left_map'. apply fold_left_ext.
    intros [L rows] [pl s]. cbn [fst snd]. destruct (add_label_spec L pl) as (i & E & Hi & _).
    rewrite E. unfold proc. cbn [fst snd item_labels item_row]. unfold row_pd. rewrite (idx_of_index _ _ _ Hi). reflexivity.
  Qed.

  Lemma emit_pair_proc g ga p pa a : emit_pair det datum gb pb g ga p pa a = fold_left proc (pair_items g ga p pa) a.
  Proof.
    unfold emit_pair, pair_items. rewrite <- fold_left_flat. apply fold_left_ext. intros a' gl.
    rewrite <- fold_left_map'. apply fold_left_ext. intros [L rows] [pl s]. cbn [fst snd].
    destruct (add_label_spec L gl) as (i & E & Hi & He). rewrite E.
    destruct (add_label_spec (first_appearance L [gl]) pl) as (j & E2 & Hj & He2). rewrite E2.
    unfold proc. cbn [fst snd item_labels item_row]. unfold row_pair.
    assert (Hf : first_appearance L [gl; pl] = first_appearance (first_appearance L [gl]) [pl])
      by (apply (first_appearance_app L [gl] [pl])).
    rewrite Hf. rewrite (idx_of_index _ _ _ Hj). rewrite (idx_of_index _ _ _ (extends_index _ _ _ _ He2 Hi)). reflexivity.
  Qed.

  Lemma emit_gt_pds_proc g ga a : emit_gt_pds eps det datum gb pb g ga a = fold_left proc (gt_pd_items g ga) a.
  Proof.
    unfold emit_gt_pds, gt_pd_items. rewrite <- fold_left_flat. apply fold_left_ext. intros a' [p pa]. cbn [fst snd].
    rewrite fold_left_app. destruct (pd_alone eps det p), (eps <=? t_iou det p g)%Z;
      rewrite ?emit_pair_proc, ?emit_pd_proc; reflexivity.
  Qed.

  Lemma emit_gt_proc a ig : a_labels (snd ig) <> [] ->
    emit_gt eps det datum gb pb (Some a) ig = Some (fold_left proc (gt_items ig) a).
  Proof.
    intros H. unfold emit_gt, gt_items. destruct a as [L rows]. destruct (a_labels (snd ig)) as [|gl rest]; [congruence|].
    destruct (add_label_spec L gl) as (i & E & Hi & _). rewrite E. rewrite emit_gt_pds_proc.
    cbn [fold_left]. destruct (gt_alone eps det (fst ig)); unfold proc at 3; cbn [fst snd item_labels item_row].
    - unfold row_gt. rewrite (idx_of_index _ _ _ Hi). reflexivity.
    - rewrite app_nil_r. reflexivity.
  Qed.

  Lemma enum_In {A} (l : list A) i x : In (i, x) (enum l) <-> nth_error l i = Some x.
  Proof.
    unfold enum. assert (G : forall k, In (i, x) (combine (seq k (List.length l)) l) <-> k <= i /\ nth_error l (i - k) = Some x).
    { induction l as [|a t IH]; intros k; cbn [List.length seq combine].
      - split; [intros []|]. intros [_ H]. destruct (i - k); discriminate.
      - cbn [In]. rewrite IH. split.
        + intros [E|[H1 H2]].
          * inversion E; subst. rewrite Nat.sub_diag. auto.
          * split; [lia|]. replace (i - k) with (S (i - S k)) by lia. exact H2.
        + intros [H1 H2]. destruct (Nat.eq_dec k i) as [->|Hne].
          * left. rewrite Nat.sub_diag in H2. inversion H2; reflexivity.
          * right. split; [lia|]. replace (i - k) with (S (i - S k)) in H2 by lia. exact H2. }
    rewrite G. rewrite Nat.sub_0_r. split; [tauto|]. intros H; split; [lia|exact H].
  Qed.

  Lemma emit_datum_proc L : (forall a, In a (t_gts det) -> a_labels a <> []) ->
    emit_datum eps det datum gb pb L = Some (fold_left proc items (L, [])).
  Proof.
    intros H. unfold emit_datum, items. destruct (t_gts det) as [|g0 gs] eqn:Eg.
    - f_equal. rewrite <- fold_left_flat. apply fold_left_ext. intros a [p pa]. apply emit_pd_proc.
    - rewrite <- Eg in *. clear Eg. rewrite <- fold_left_flat.
      assert (G : forall l a, (forall ig, In ig l -> a_labels (snd ig) <> []) ->
        fold_left (emit_gt eps det datum gb pb) l (Some a) = Some (fold_left (fun a x => fold_left proc (gt_items x) a) l a)).
      { induction l as [|ig t IH]; intros a Hl; [reflexivity|]. cbn [fold_left].
        rewrite emit_gt_proc by (apply Hl; left; reflexivity). apply IH. intros x Hx. apply Hl. right; exact Hx. }
      apply G. intros [i a] Hin. apply enum_In in Hin. apply H. apply (nth_error_In _ _ Hin).
  Qed.

  (* the fold: registry and rows *)
  Lemma proc_fold its : forall L rows Lfin,
    extends (first_appearance L (flat_map item_labels its)) Lfin ->
    fold_left proc its (L, rows) = (first_appearance L (flat_map item_labels its), rows ++ flat_map (item_row Lfin) its).
  Proof.
    induction its as [|x t IH]; intros L rows Lfin He; cbn [fold_left flat_map].
    - rewrite app_nil_r. reflexivity.
    - cbn [flat_map] in He. rewrite first_appearance_app in *.
      unfold proc at 2. cbn [fst snd]. rewrite (IH _ _ Lfin He). f_equal. rewrite <- app_assoc. f_equal. f_equal.
      assert (Hx : extends (first_appearance L (item_labels x)) Lfin).
      { eapply extends_trans; [apply first_appearance_extends|exact He]. }
      assert (Hin : forall v, In v (item_labels x) -> idx (first_appearance L (item_labels x)) v = idx Lfin v).
      { intros v Hv. apply idx_extends; [exact Hx|]. apply first_appearance_In. auto. }
      destruct x; cbn [item_row item_labels] in *; repeat (rewrite Hin by (simpl; auto)); reflexivity.
  Qed.

  (* membership in the list of items *)
  Lemma gt_alone_spec g : gt_alone eps det g = true <-> forall p, p < List.length (t_pds det) -> (t_iou det p g < eps)%Z.
  Proof.
    unfold gt_alone. rewrite forallb_forall. split; intros H p Hp.
    - apply Z.ltb_lt. apply H. apply in_seq. lia.
    - apply in_seq in Hp. apply Z.ltb_lt. apply H. lia.
  Qed.
  Lemma pd_alone_spec p : pd_alone eps det p = true <-> forall g, g < List.length (t_gts det) -> (t_iou det p g < eps)%Z.
  Proof.
    unfold pd_alone. rewrite forallb_forall. split; intros H g Hg.
    - apply Z.ltb_lt. apply H. apply in_seq. lia.
    - apply in_seq in Hg. apply Z.ltb_lt. apply H. lia.
  Qed.

  Lemma combine_In_nth {A B} (l1 : list A) : forall (l2 : list B) a b,
    In (a, b) (combine l1 l2) <-> exists k, nth_error l1 k = Some a /\ nth_error l2 k = Some b.
  Proof.
    induction l1 as [|x t IH]; intros [|y u] a b; cbn [combine In]; try (split; [intros []|intros (k & H1 & H2); destruct k; discriminate]).
    rewrite IH. split.
    - intros [E|(k & H1 & H2)]; [inversion E; subst; exists 0; auto|exists (S k); auto].
    - intros ([|k] & H1 & H2); simpl in H1, H2; [inversion H1; inversion H2; auto|right; exists k; auto].
  Qed.

  Definition label_score (a : annotation) (l : string) (s : Z) : Prop :=
    exists k, nth_error (a_labels a) k = Some l /\ nth_error (a_scores a) k = Some s.

  Lemma pd_items_In p pa x : In x (pd_items p pa) <-> exists pl s, label_score pa pl s /\ x = IPd p pa pl s.
  Proof.
    unfold pd_items. rewrite in_map_iff. split.
    - intros ([pl s] & <- & H). apply combine_In_nth in H. exists pl, s. auto.
    - intros (pl & s & H & ->). exists (pl, s). split; [reflexivity|]. apply combine_In_nth. exact H.
  Qed.
  Lemma pair_items_In g ga p pa x : In x (pair_items g ga p pa) <->
    exists gl pl s, In gl (a_labels ga) /\ label_score pa pl s /\ x = IPair g ga gl p pa pl s.
  Proof.
    unfold pair_items. rewrite in_flat_map. split.
    - intros (gl & Hg & H). apply in_map_iff in H. destruct H as ([pl s] & <- & H). apply combine_In_nth in H.
      exists gl, pl, s. auto.
    - intros (gl & pl & s & Hg & H & ->). exists gl. split; [exact Hg|]. apply in_map_iff.
      exists (pl, s). split; [reflexivity|]. apply combine_In_nth. exact H.
  Qed.

  (* what is emitted *)
  Definition wanted (x : item) : Prop :=
    match x with
    | ILabel gl => exists g ga rest, nth_error (t_gts det) g = Some ga /\ a_labels ga = gl :: rest /\ gt_alone eps det g = false
    | IGt g ga gl => nth_error (t_gts det) g = Some ga /\ (exists rest, a_labels ga = gl :: rest) /\ gt_alone eps det g = true
    | IPd p pa pl s => nth_error (t_pds det) p = Some pa /\ label_score pa pl s /\ pd_alone eps det p = true
    | IPair g ga gl p pa pl s =>
        nth_error (t_gts det) g = Some ga /\ nth_error (t_pds det) p = Some pa /\ In gl (a_labels ga) /\
        label_score pa pl s /\ (eps <= t_iou det p g)%Z
    end.

  Lemma items_In x : (forall a, In a (t_gts det) -> a_labels a <> []) -> In x items <-> wanted x.
  Proof.
    intros Hne. unfold items. destruct (t_gts det) as [|g0 gs] eqn:Eg.
    - rewrite in_flat_map. split.
      + intros ([p pa] & H1 & H2). apply enum_In in H1. apply pd_items_In in H2. destruct H2 as (pl & s & H & ->).
        cbn [wanted fst snd]. repeat split; auto. apply pd_alone_spec. rewrite Eg. simpl. intros g Hg; inversion Hg.
      + destruct x; cbn [wanted].
        * intros (g & ga & rest & H & _). rewrite Eg in H. destruct g; discriminate.
        * intros (H & _). rewrite Eg in H. destruct g; discriminate.
        * intros (H1 & H2 & H3). exists (p, pa). split; [apply enum_In; exact H1|]. apply pd_items_In. exists pl, s. auto.
        * intros (H & _). rewrite Eg in H. destruct g; discriminate.
    - rewrite <- Eg in *. rewrite in_flat_map. split.
      + intros ([g ga] & H1 & H2). apply enum_In in H1. unfold gt_items in H2. cbn [fst snd] in H2.
        destruct (a_labels ga) as [|gl rest] eqn:El; [destruct H2|]. destruct H2 as [H2|H2].
        * destruct (gt_alone eps det g) eqn:Ea; subst x; cbn [wanted]; eauto 10.
        * unfold gt_pd_items in H2. rewrite in_flat_map in H2. destruct H2 as ([p pa] & H3 & H4).
          apply enum_In in H3. cbn [fst snd] in H4. apply in_app_iff in H4. destruct H4 as [H4|H4].
          -- destruct (pd_alone eps det p) eqn:Ep; [|destruct H4]. apply pd_items_In in H4.
             destruct H4 as (pl & s & H5 & ->). cbn [wanted]. auto.
          -- destruct (eps <=? t_iou det p g)%Z eqn:Ei; [|destruct H4]. apply pair_items_In in H4.
             destruct H4 as (gl' & pl & s & H5 & H6 & ->). cbn [wanted]. repeat split; auto. lia.
      + destruct x; cbn [wanted].
        * intros (g & ga & rest & H1 & H2 & H3). exists (g, ga). split; [apply enum_In; exact H1|].
          unfold gt_items. cbn [fst snd]. rewrite H2, H3. left; reflexivity.
        * intros (H1 & (rest & H2) & H3). exists (g, ga). split; [apply enum_In; exact H1|].
          unfold gt_items. cbn [fst snd]. rewrite H2, H3. left; reflexivity.
        * intros (H1 & H2 & H3). exists (0, g0). split; [apply enum_In; rewrite Eg; reflexivity|].
          unfold gt_items. cbn [fst snd].
          destruct (a_labels g0) as [|gl rest] eqn:El; [exfalso; apply (Hne g0); [rewrite Eg; left; reflexivity|exact El]|].
          right. unfold gt_pd_items. rewrite in_flat_map. exists (p, pa). split; [apply enum_In; exact H1|].
          cbn [fst snd]. rewrite H3. apply in_app_iff. left. apply pd_items_In. exists pl, s. auto.
        * intros (H1 & H2 & H3 & H4 & H5). exists (g, ga). split; [apply enum_In; exact H1|].
          unfold gt_items. cbn [fst snd]. destruct (a_labels ga) as [|gl' rest] eqn:El; [destruct H3|].
          right. unfold gt_pd_items. rewrite in_flat_map. exists (p, pa). split; [apply enum_In; exact H2|].
          cbn [fst snd]. apply in_app_iff. right. replace (eps <=? t_iou det p g)%Z with true by lia.
          apply pair_items_In. exists gl, pl, s. rewrite El. auto.
  Qed.
End DatumP.

(* ------------------------------------------------------------------ *)
(** * The whole input *)

Definition gt_labels_ok (d : detection) : Prop := forall a, In a (t_gts d) -> a_labels a <> [].

Lemma det_ok_labels d : det_ok d = true -> plain_gts d -> gt_labels_ok d.
Proof.
  intros H Hp a Ha E. unfold det_ok in H. rewrite !andb_true_iff in H. destruct H as [[H _] _].
  rewrite forallb_forall in H. specialize (H a Ha). unfold ann_ok in H. rewrite (Hp a Ha), E in H. simpl in H. discriminate.
Qed.

Section WholeP.
  Variable eps : Z.

  Lemma add_detection_eq l d : gt_labels_ok d ->
    exists its, (forall x, In x its <-> wanted eps d x) /\
      let L' := first_appearance (l_labels l) (flat_map item_labels its) in
      let rows := flat_map (item_row d (l_datums l) (l_gts l) (l_pds l) L') its in
      add_detection eps l d =
      Some (MkDL L' (S (l_datums l)) (l_gts l + List.length (t_gts d)) (l_pds l + List.length (t_pds d))
              (l_writes l ++ match rows with [] => [] | _ :: _ => [rows] end)) /\
      forall Lfin, extends L' Lfin -> rows = flat_map (item_row d (l_datums l) (l_gts l) (l_pds l) Lfin) its.
  Proof.
    intros H. exists (items eps d). split; [intros x; apply items_In; exact H|]. cbn zeta.
    set (L' := first_appearance (l_labels l) (flat_map item_labels (items eps d))).
    assert (P := proc_fold d (l_datums l) (l_gts l) (l_pds l) (items eps d) (l_labels l) []).
    fold L' in P. cbn [app] in P. split.
    - unfold add_detection. rewrite emit_datum_proc by exact H. rewrite (P L' (extends_refl L')). reflexivity.
    - intros Lfin He. assert (P1 := P L' (extends_refl L')). rewrite (P Lfin He) in P1. inversion P1. reflexivity.
  Qed.

  (* rows of one datum *)
  Definition datum_rows (ds : list detection) (L : list string) (i : nat) (d : detection) (r : drow) : Prop :=
    exists x, wanted eps d x /\ In r (item_row d i (gts_before ds i) (pds_before ds i) L x).

  Record loaded (ds : list detection) (l : dloader) : Prop := {
    ld_datums : l_datums l = List.length ds;
    ld_gts : l_gts l = gts_before ds (List.length ds);
    ld_pds : l_pds l = pds_before ds (List.length ds);
    ld_nodup : NoDup (l_labels l);
    ld_labels : forall v, In v (l_labels l) <-> exists d x, In d ds /\ wanted eps d x /\ In v (item_labels x);
    ld_rows : forall Lfin, extends (l_labels l) Lfin ->
      forall r, In r (List.concat (l_writes l)) <-> exists i d, nth_error ds i = Some d /\ datum_rows ds Lfin i d r;
    ld_datum_writes : forall w a b, In w (l_writes l) -> In a w -> In b w -> d_datum a = d_datum b;
    ld_sorted : StronglySorted (fun a b => (d_datum a <= d_datum b)%Z) (List.concat (l_writes l));
    ld_aligned : aligned d_datum (l_writes l)
  }.

  Lemma before_snoc f ds d i : i <= List.length ds ->
    list_sum_nat (map (f : detection -> nat) (firstn i (ds ++ [d]))) = list_sum_nat (map f (firstn i ds)).
  Proof. intros H. rewrite firstn_app. replace (i - List.length ds) with 0 by lia. simpl. rewrite app_nil_r. reflexivity. Qed.

  Lemma before_all f ds d :
    list_sum_nat (map (f : detection -> nat) (firstn (List.length (ds ++ [d])) (ds ++ [d])))
    = list_sum_nat (map f (firstn (List.length ds) ds)) + f d.
  Proof.
    rewrite !firstn_all. rewrite map_app, list_sum_nat_app. f_equal. cbn. lia.
  Qed.

  Lemma item_row_datum d i gb pb L x r : In r (item_row d i gb pb L x) -> d_datum r = Z.of_nat i.
  Proof. destruct x; cbn [item_row In]; intros H; try contradiction; destruct H as [<-|[]]; reflexivity. Qed.

  Lemma aligned_snoc {A} (key : A -> Z) ts t :
    aligned key ts -> (forall ti a b, In ti ts -> In a ti -> In b t -> key a <> key b) -> aligned key (ts ++ [t]).
  Proof.
    intros Ha Hn i j ti tj a b Hi Hj Hai Hbj E.
    destruct (Nat.lt_ge_cases i (List.length ts)) as [Li|Li], (Nat.lt_ge_cases j (List.length ts)) as [Lj|Lj].
    - rewrite nth_error_app1 in Hi, Hj by lia. eapply Ha; eauto.
    - exfalso. rewrite nth_error_app1 in Hi by lia. rewrite nth_error_app2 in Hj by lia.
      destruct (j - List.length ts) as [|k]; [|destruct k; discriminate]. inversion Hj; subst.
      apply (Hn ti a b); auto. apply (nth_error_In _ _ Hi).
    - exfalso. rewrite nth_error_app2 in Hi by lia. rewrite nth_error_app1 in Hj by lia.
      destruct (i - List.length ts) as [|k]; [|destruct k; discriminate]. inversion Hi; subst.
      apply (Hn tj b a); auto. apply (nth_error_In _ _ Hj).
    - assert (i < List.length (ts ++ [t])) by (apply nth_error_Some; congruence).
      assert (j < List.length (ts ++ [t])) by (apply nth_error_Some; congruence).
      rewrite app_length in *. simpl in *. lia.
  Qed.

  Lemma loaded_snoc ds l d : loaded ds l -> gt_labels_ok d ->
    exists l', add_detection eps l d = Some l' /\ loaded (ds ++ [d]) l'.
  Proof.
    intros [H1 H2 H3 H4 H5 H6 H7 H8 H9] Hd.
    destruct (add_detection_eq l d Hd) as (its & Hits & E & Hrows). cbn zeta in E.
    set (L' := first_appearance (l_labels l) (flat_map item_labels its)) in *.
    set (rows := flat_map (item_row d (l_datums l) (l_gts l) (l_pds l) L') its) in *.
    eexists. split; [exact E|].
    assert (Hext : extends (l_labels l) L') by apply first_appearance_extends.
    assert (Hrd : forall r, In r rows -> d_datum r = Z.of_nat (List.length ds)).
    { intros r Hr. unfold rows in Hr. apply in_flat_map in Hr. destruct Hr as (x & _ & Hr).
      apply item_row_datum in Hr. rewrite Hr, H1. reflexivity. }
    assert (Hold : forall r, In r (List.concat (l_writes l)) -> (d_datum r < Z.of_nat (List.length ds))%Z).
    { intros r Hr. apply (H6 _ (extends_refl _)) in Hr. destruct Hr as (i & d' & Hi & (x & _ & Hx)).
      apply item_row_datum in Hx. rewrite Hx. assert (i < List.length ds) by (apply nth_error_Some; congruence). lia. }
    assert (Hcw : List.concat (l_writes l ++ match rows with [] => [] | _ :: _ => [rows] end) = List.concat (l_writes l) ++ rows).
    { rewrite concat_app. f_equal. destruct rows; [reflexivity|]. simpl. rewrite app_nil_r. reflexivity. }
    split; cbn [l_datums l_gts l_pds l_labels l_writes].
    - rewrite app_length. simpl. lia.
    - unfold gts_before. rewrite (before_all (fun d => List.length (t_gts d))). rewrite H2. reflexivity.
    - unfold pds_before. rewrite (before_all (fun d => List.length (t_pds d))). rewrite H3. reflexivity.
    - apply first_appearance_NoDup. exact H4.
    - intros v. unfold L'. rewrite first_appearance_In, H5, in_flat_map. split.
      + intros [(d' & x & Hd' & Hx)|(x & Hx & Hv)].
        * exists d', x. rewrite in_app_iff. tauto.
        * exists d, x. rewrite in_app_iff. simpl. apply Hits in Hx. auto.
      + intros (d' & x & Hd' & Hx & Hv). apply in_app_iff in Hd'. destruct Hd' as [Hd'|[<-|[]]].
        * left. exists d', x. auto.
        * right. exists x. split; [apply Hits; exact Hx|exact Hv].
    - intros Lfin He r. rewrite Hcw, in_app_iff.
      rewrite (H6 Lfin (extends_trans _ _ _ Hext He)). rewrite (Hrows Lfin He). rewrite in_flat_map.
      assert (Hgb : forall i, i <= List.length ds -> gts_before (ds ++ [d]) i = gts_before ds i) by (intros; apply before_snoc; assumption).
      assert (Hpb : forall i, i <= List.length ds -> pds_before (ds ++ [d]) i = pds_before ds i) by (intros; apply before_snoc; assumption).
      split.
      + intros [(i & d' & Hi & (x & Hx & Hr))|(x & Hx & Hr)].
        * assert (i < List.length ds) by (apply nth_error_Some; congruence).
          exists i, d'. split; [rewrite nth_error_app1 by lia; exact Hi|]. exists x. rewrite Hgb, Hpb by lia. auto.
        * exists (List.length ds), d. split; [rewrite nth_error_app2, Nat.sub_diag by lia; reflexivity|].
          exists x. rewrite Hgb, Hpb by lia. rewrite <- H1 at 1. rewrite <- H2, <- H3. split; [apply Hits; exact Hx|exact Hr].
      + intros (i & d' & Hi & (x & Hx & Hr)).
        destruct (Nat.lt_ge_cases i (List.length ds)) as [Li|Li].
        * left. rewrite nth_error_app1 in Hi by lia. exists i, d'. split; [exact Hi|]. exists x.
          rewrite Hgb, Hpb in Hr by lia. auto.
        * right. assert (i < List.length (ds ++ [d])) by (apply nth_error_Some; congruence).
          rewrite app_length in H. simpl in H. assert (i = List.length ds) by lia. subst i.
          rewrite nth_error_app2, Nat.sub_diag in Hi by lia. inversion Hi; subst d'. exists x.
          rewrite Hgb, Hpb in Hr by lia. rewrite <- H1 in Hr at 1. rewrite <- H2, <- H3 in Hr. split; [apply Hits; exact Hx|exact Hr].
    - intros w a b Hw Ha Hb. apply in_app_iff in Hw. destruct Hw as [Hw|Hw]; [eapply H7; eauto|].
      assert (w = rows) by (destruct rows; [destruct Hw|destruct Hw as [<-|[]]; reflexivity]). subst w.
      rewrite (Hrd a Ha), (Hrd b Hb). reflexivity.
    - rewrite Hcw. apply StronglySorted_app. split; [exact H8|]. split.
      + assert (G : forall m, (forall r, In r m -> d_datum r = Z.of_nat (List.length ds)) -> StronglySorted (fun a b => (d_datum a <= d_datum b)%Z) m).
        { induction m as [|a t IH]; intros Hm; constructor; [apply IH; intros r Hr; apply Hm; right; exact Hr|].
          apply Forall_forall. intros x Hx. rewrite (Hm a), (Hm x); [lia|right; exact Hx|left; reflexivity]. }
        apply G. exact Hrd.
      + intros a b Ha Hb. rewrite (Hrd b Hb). specialize (Hold a Ha). lia.
    - destruct rows as [|r0 rs] eqn:Er; [rewrite app_nil_r; exact H9|].
      apply aligned_snoc; [exact H9|]. intros ti a b Hti Ha Hb Hk.
      assert (In a (List.concat (l_writes l))) by (apply in_concat; eauto).
      specialize (Hold a H). rewrite Hk, (Hrd b Hb) in Hold. lia.
  Qed.

  Lemma loaded_init : loaded [] dloader_init.
  Proof.
    split; cbn; try reflexivity.
    - constructor.
    - intros v. split; [intros []|intros (d & x & [] & _)].
    - intros L _ r. split; [intros []|]. intros (i & d & H & _). destruct i; discriminate.
    - intros w a b [].
    - constructor.
    - intros i j ti tj a b H. destruct i; discriminate.
  Qed.

  Lemma add_detections_loaded ds : Forall gt_labels_ok ds ->
    exists l, add_detections eps dloader_init ds = Some l /\ loaded ds l.
  Proof.
    intros H. assert (G : forall done l rest, loaded done l -> Forall gt_labels_ok rest ->
      exists l', add_detections eps l rest = Some l' /\ loaded (done ++ rest) l').
    { intros done l rest. revert done l. induction rest as [|d t IH]; intros done l Hl Hr.
      - exists l. rewrite app_nil_r. auto.
      - inversion Hr; subst. destruct (loaded_snoc done l d Hl H2) as (l' & E & Hl').
        cbn [add_detections]. rewrite E. destruct (IH (done ++ [d]) l' Hl' H3) as (l'' & E' & Hl'').
        exists l''. rewrite <- app_assoc in Hl''. auto. }
    apply (G [] dloader_init ds loaded_init H).
  Qed.

  (* the label registry covers all labels of the rows *)
  Lemma loaded_label ds l d x v : loaded ds l -> In d ds -> wanted eps d x -> In v (item_labels x) ->
    exists i, index_of v (l_labels l) = Some i /\ idx (l_labels l) v = Z.of_nat i.
  Proof.
    intros H Hd Hx Hv. assert (Hin : In v (l_labels l)) by (apply (ld_labels _ _ H); eauto).
    unfold idx. destruct (index_of v (l_labels l)) as [i|] eqn:E; [eauto|].
    apply index_of_None in E. contradiction.
  Qed.

  (* C36: exactly the described rows *)
  Lemma loaded_rows ds l r : loaded ds l ->
    In r (List.concat (l_writes l)) <-> described eps ds (l_labels l) r.
  Proof.
    intros H. rewrite (ld_rows _ _ H _ (extends_refl _)). split.
    - intros (i & d & Hi & (x & Hx & Hr)). assert (Hd : In d ds) by (apply (nth_error_In _ _ Hi)).
      destruct x; cbn [item_row In wanted] in *; try contradiction; destruct Hr as [<-|[]].
      + destruct (loaded_label ds l d (IGt g ga gl) gl H Hd Hx) as (gi & E & ->); [left; reflexivity|].
        destruct Hx as (Hg & (rest & El) & Ha). assert (Ha' := proj1 (gt_alone_spec eps d g) Ha).
        exact (Desc_gt eps ds (l_labels l) i d g ga gl rest gi Hi Hg El Ha' E).
      + destruct (loaded_label ds l d (IPd p pa pl s) pl H Hd Hx) as (pi & E & ->); [left; reflexivity|].
        destruct Hx as (Hp & (k & Hk1 & Hk2) & Ha). assert (Ha' := proj1 (pd_alone_spec eps d p) Ha).
        exact (Desc_pd eps ds (l_labels l) i d p pa k pl s pi Hi Hp Hk1 Hk2 Ha' E).
      + destruct (loaded_label ds l d (IPair g ga gl p pa pl s) gl H Hd Hx) as (gi & E & ->); [left; reflexivity|].
        destruct (loaded_label ds l d (IPair g ga gl p pa pl s) pl H Hd Hx) as (pi & E' & ->); [right; left; reflexivity|].
        destruct Hx as (Hg & Hp & Hgl & (k & Hk1 & Hk2) & Hi').
        apply In_nth_error in Hgl. destruct Hgl as (j & Hj).
        exact (Desc_pair eps ds (l_labels l) i d g ga j gl gi p pa k pl s pi Hi Hg Hp Hj Hk1 Hk2 Hi' E E').
    - intros Hr. destruct Hr as [i d g ga gl rest gi Hi Hg El Ha E|i d p pa k pl s pi Hi Hp Hk1 Hk2 Ha E
        |i d g ga j gl gi p pa k pl s pi Hi Hg Hp Hj Hk1 Hk2 Hiou E E'];
        exists i, d; (split; [exact Hi|]).
      + exists (IGt g ga gl). split; [cbn [wanted]; repeat split; eauto; apply gt_alone_spec; exact Ha|].
        left. cbn [item_row]. rewrite <- (idx_of_index _ _ _ E). reflexivity.
      + exists (IPd p pa pl s). split; [cbn [wanted]; repeat split; unfold label_score; eauto; apply pd_alone_spec; exact Ha|].
        left. cbn [item_row]. rewrite <- (idx_of_index _ _ _ E). reflexivity.
      + exists (IPair g ga gl p pa pl s). split.
        { cbn [wanted]. repeat split; unfold label_score; eauto. apply (nth_error_In _ _ Hj). }
        left. cbn [item_row]. rewrite <- (idx_of_index _ _ _ E), <- (idx_of_index _ _ _ E'). reflexivity.
  Qed.

  (* which labels are registered *)
  Lemma loaded_labels_In ds l v : loaded ds l ->
    (forall d, In d ds -> plain_gts d /\ det_ok d = true) ->
    In v (l_labels l) <-> In v (det_labels ds).
  Proof.
    intros H Hok. rewrite (ld_labels _ _ H). unfold det_labels. rewrite in_concat. split.
    - intros (d & x & Hd & Hx & Hv). exists (List.concat (map a_labels (t_gts d ++ t_pds d))).
      split; [apply in_map_iff; eauto|]. apply in_concat.
      assert (G : exists a, In a (t_gts d ++ t_pds d) /\ In v (a_labels a)).
      { destruct x; cbn [wanted item_labels] in *.
        - destruct Hv as [<-|[]]. destruct Hx as (g & ga & rest & Hg & El & _). exists ga.
          split; [apply in_app_iff; left; apply (nth_error_In _ _ Hg)|rewrite El; left; reflexivity].
        - destruct Hv as [<-|[]]. destruct Hx as (Hg & (rest & El) & _). exists ga.
          split; [apply in_app_iff; left; apply (nth_error_In _ _ Hg)|rewrite El; left; reflexivity].
        - destruct Hv as [<-|[]]. destruct Hx as (Hp & (k & Hk & _) & _). exists pa.
          split; [apply in_app_iff; right; apply (nth_error_In _ _ Hp)|apply (nth_error_In _ _ Hk)].
        - destruct Hx as (Hg & Hp & Hgl & (k & Hk & _) & _). destruct Hv as [<-|[<-|[]]].
          + exists ga. split; [apply in_app_iff; left; apply (nth_error_In _ _ Hg)|exact Hgl].
          + exists pa. split; [apply in_app_iff; right; apply (nth_error_In _ _ Hp)|apply (nth_error_In _ _ Hk)]. }
      destruct G as (a & Ha & Hva). exists (a_labels a). split; [apply in_map; exact Ha|exact Hva].
    - intros (ls & Hls & Hv). apply in_map_iff in Hls. destruct Hls as (d & <- & Hd).
      apply in_concat in Hv. destruct Hv as (la & Hla & Hv). apply in_map_iff in Hla. destruct Hla as (a & <- & Ha).
      destruct (Hok d Hd) as [Hpl Hdo]. exists d.
      assert (Hann : forall a, In a (t_gts d) -> exists gl, a_labels a = [gl]).
      { intros b Hb. unfold det_ok in Hdo. rewrite !andb_true_iff in Hdo. destruct Hdo as [[Ho _] _].
        rewrite forallb_forall in Ho. specialize (Ho b Hb). unfold ann_ok in Ho. rewrite (Hpl b Hb) in Ho. simpl in Ho.
        rewrite andb_true_r in Ho. apply Nat.eqb_eq in Ho. destruct (a_labels b) as [|gl [|? ?]]; try discriminate. eauto. }
      apply in_app_iff in Ha. destruct Ha as [Ha|Ha].
      + destruct (Hann a Ha) as (gl & El). rewrite El in Hv. destruct Hv as [<-|[]].
        apply In_nth_error in Ha. destruct Ha as (g & Hg).
        destruct (gt_alone eps d g) eqn:Eg.
        * exists (IGt g a gl). split; [exact Hd|]. split; [cbn; repeat split; eauto|left; reflexivity].
        * exists (ILabel gl). split; [exact Hd|]. split; [cbn; eauto 8|left; reflexivity].
      + assert (Hlen : List.length (a_scores a) = List.length (a_labels a)).
        { unfold det_ok in Hdo. rewrite !andb_true_iff in Hdo. destruct Hdo as [_ Ho].
          rewrite forallb_forall in Ho. specialize (Ho a Ha). apply Nat.eqb_eq in Ho. exact Ho. }
        apply In_nth_error in Hv. destruct Hv as (k & Hk).
        assert (exists s, nth_error (a_scores a) k = Some s) as (s & Hs).
        { destruct (nth_error (a_scores a) k) eqn:E; [eauto|]. apply nth_error_None in E.
          assert (k < List.length (a_labels a)) by (apply nth_error_Some; congruence). lia. }
        apply In_nth_error in Ha. destruct Ha as (p & Hp).
        destruct (pd_alone eps d p) eqn:Ep.
        * exists (IPd p a v s). split; [exact Hd|]. split; [cbn; repeat split; unfold label_score; eauto|left; reflexivity].
        * assert (Hex : exists g, g < List.length (t_gts d) /\ (eps <= t_iou d p g)%Z).
          { unfold pd_alone in Ep. apply not_true_iff_false in Ep. rewrite forallb_forall in Ep.
            destruct (existsb (fun g => (eps <=? t_iou d p g)%Z) (seq 0 (List.length (t_gts d)))) eqn:Ex.
            - apply existsb_exists in Ex. destruct Ex as (g & Hg & Hgi). apply in_seq in Hg. exists g. lia.
            - exfalso. apply Ep. intros g Hg. apply not_false_iff_true. intros Hf.
              assert (existsb (fun g => (eps <=? t_iou d p g)%Z) (seq 0 (List.length (t_gts d))) = true); [|congruence].
              apply existsb_exists. exists g. split; [exact Hg|lia]. }
          destruct Hex as (g & Hgl & Hgi).
          destruct (nth_error (t_gts d) g) as [ga|] eqn:Eg; [|apply nth_error_None in Eg; lia].
          destruct (Hann ga (nth_error_In _ _ Eg)) as (gl & El).
          exists (IPair g ga gl p a v s). split; [exact Hd|]. split; [cbn|right; left; reflexivity].
          repeat split; auto; [rewrite El; left; reflexivity|unfold label_score; eauto].
  Qed.
End WholeP.
