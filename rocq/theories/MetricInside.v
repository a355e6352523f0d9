(* No object occurs twice inside one metric, but lists of the caller (C109). *)
From Verif Require Import Prelude MetricModel MetricSpec MetricMore.
From Verif Require Import ClsModel ClsReportModel ClsPageModel ClsCellModel DetReportModel DetExModel DetCellModel.
From Verif Require SegModel.
From Coq Require Import String QArith Lia.
Local Notation length := List.length (only parsing).
Local Open Scope nat_scope.
Local Open Scope list_scope.

(* every container is the one made at its own place *)
Definition canon (new : supply oid) (v : pyval oid) : Prop := copy new v = v.
Definition atom (v : pyval oid) : Prop := forall new, canon new v /\ ids v = [].

Lemma canon_list new l : (forall n x, nth_error l n = Some x -> canon (below new (At n)) x) -> canon new (PyList (new []) l).
Proof.
  intros H. unfold canon. cbn. f_equal. assert (K : forall k, (forall n x, nth_error l n = Some x -> canon (below new (At (k + n))) x) -> (fix go (n : nat) (l : list (pyval oid)) : list (pyval oid) :=
      match l with [] => [] | x :: t => copy (below new (At n)) x :: go (S n) t end) k l = l).
  { clear H. induction l as [|x l IH]; intros k H; [reflexivity|]. f_equal; [specialize (H 0 x eq_refl); rewrite Nat.add_0_r in H; exact H|].
    apply IH. intros n y Hy. specialize (H (S n) y Hy). rewrite Nat.add_succ_r in H. exact H. }
  apply K. exact H.
Qed.
Lemma canon_tuple new l : (forall x, In x l -> atom x) -> canon new (PyTuple l).
Proof.
  intros H. unfold canon. cbn. f_equal. generalize 0. induction l as [|x l IH]; intros k; [reflexivity|]. f_equal; [apply (H x); left; reflexivity|].
  apply IH. intros y Hy. apply H. right. exact Hy.
Qed.
Lemma canon_dict new d : Forall (fun kv => canon (below new (Key (fst kv))) (snd kv)) d -> canon new (PyDict (new []) d).
Proof. intros H. unfold canon. cbn. f_equal. induction H as [|[k x] d H _ IH]; [reflexivity|]. cbn in H. f_equal; [f_equal; exact H|exact IH]. Qed.
Lemma atom_canon new v : atom v -> canon new v.
Proof. intros H. apply H. Qed.
Lemma atoms_canon new l : (forall v, In v l -> atom v) -> canon new (PyList (new []) l).
Proof. intros H. apply canon_list. intros n x Hx. apply (H x). exact (nth_error_In _ _ Hx). Qed.
Ltac at0 := solve [intros ?; split; reflexivity | match goal with |- atom (plabel ?l) => destruct l; intros ?; split; reflexivity | |- atom (or_nan ?o) => destruct o; intros ?; split; reflexivity
  | |- atom (key_value ?o) => destruct o; intros ?; split; reflexivity | |- atom (match ?l with Some _ => _ | None => _ end) => destruct l; intros ?; split; reflexivity end].

Lemma count_dict_canon new d : canon new (count_dict new d).
Proof. apply canon_dict. apply Forall_map_in. intros x. apply atom_canon. at0. Qed.
Lemma count_table_canon new d : canon new (count_table new d).
Proof. apply canon_dict. apply Forall_map_in. intros x. apply count_dict_canon. Qed.
Lemma rate_dict_canon new k d : canon new (rate_dict new k d).
Proof. apply canon_dict. apply Forall_map_in. intros x. cbn. apply canon_dict. constructor; [apply atom_canon; at0|constructor]. Qed.
Lemma cell_canon {X} new (ex : supply oid -> X -> option (pyval oid)) c v :
  (forall new x v, ex new x = Some v -> canon new v) -> cell_dict new ex c = Some v -> canon new v.
Proof.
  intros Hex. unfold cell_dict. destruct (SegModel.all_some _) as [l|] eqn:E; [|discriminate]. intros [= <-]. apply canon_dict.
  constructor; [apply atom_canon; at0|constructor; [|constructor]]. cbn [fst snd]. apply canon_list. intros n y Hy. apply (all_some_nth _ _ _ _ E) in Hy. rewrite imap_nth in Hy.
  destruct (nth_error (snd c) n) as [x|]; [|discriminate]. cbn in Hy. injection Hy as Hy. exact (Hex _ _ _ Hy).
Qed.
Lemma cells_canon {X} new (ex : supply oid -> X -> option (pyval oid)) d v :
  (forall new x v, ex new x = Some v -> canon new v) -> cells_dict new ex d = Some v -> canon new v.
Proof.
  intros Hex. unfold cells_dict. destruct (SegModel.all_some _) as [l|] eqn:E; [|discriminate]. intros [= <-]. apply canon_dict.
  apply Forall_forall. intros y Hy. apply (all_some_In _ _ _ E) in Hy. apply in_map_iff in Hy. destruct Hy as (x & Ex & _).
  destruct (cell_dict _ ex (snd x)) as [w|] eqn:Ew; [|discriminate]. cbn in Ex. injection Ex as <-. cbn. exact (cell_canon _ _ _ _ Hex Ew).
Qed.
Lemma table_canon {X} new (ex : supply oid -> X -> option (pyval oid)) d v :
  (forall new x v, ex new x = Some v -> canon new v) -> cells_table new ex d = Some v -> canon new v.
Proof.
  intros Hex. unfold cells_table. destruct (SegModel.all_some _) as [l|] eqn:E; [|discriminate]. intros [= <-]. apply canon_dict.
  apply Forall_forall. intros y Hy. apply (all_some_In _ _ _ E) in Hy. apply in_map_iff in Hy. destruct Hy as (x & Ex & _).
  destruct (cells_dict _ ex (snd x)) as [w|] eqn:Ew; [|discriminate]. cbn in Ex. injection Ex as <-. cbn. exact (cells_canon _ _ _ _ Hex Ew).
Qed.
Lemma record_canon new d v : Some (PyDict (new []) d) = Some v -> (forall kv, In kv d -> atom (snd kv)) -> canon new v.
Proof. intros [= <-] H. apply canon_dict. apply Forall_forall. intros kv Hk. apply atom_canon. exact (H kv Hk). Qed.
Lemma olist_canon new l v : olist new l = Some v -> canon new v.
Proof. unfold olist. destruct (SegModel.all_some l); [|discriminate]. intros [= <-]. apply atoms_canon. intros x Hx. apply in_map_iff in Hx. destruct Hx as (y & <- & _). at0. Qed.
Lemma uid_value_atom (u : option (option string)) v : uid_value (I := oid) u = Some v -> atom v.
Proof. destruct u as [[s|]|]; intros [= <-]; at0. Qed.
Lemma uid_list_canon new l v : uid_list new l = Some v -> canon new v.
Proof.
  unfold uid_list. destruct (SegModel.all_some _) as [t|] eqn:E; [|discriminate]. intros [= <-]. apply atoms_canon.
  intros x Hx. apply (all_some_In _ _ _ E) in Hx. apply in_map_iff in Hx. destruct Hx as (y & Hy & _). exact (uid_value_atom _ _ Hy).
Qed.
Lemma pair_list_canon new l v : pair_list new l = Some v -> canon new v.
Proof.
  unfold pair_list. destruct (SegModel.all_some _) as [t|] eqn:E; [|discriminate]. intros [= <-]. apply canon_list.
  intros n x Hx. apply nth_error_In in Hx. apply (all_some_In _ _ _ E) in Hx. apply in_map_iff in Hx. destruct Hx as (y & Hy & _). unfold uid_pair in Hy.
  destruct (uid_value (fst y)) as [a|] eqn:Ea; [|discriminate]. destruct (uid_value (snd y)) as [b|] eqn:Eb; [|discriminate]. injection Hy as <-.
  apply canon_tuple. intros z [<-|[<-|[]]]; eapply uid_value_atom; eassumption.
Qed.

(* ---------------------------------------------------------------- metrics *)
Section Own.
  Variable own : oid -> Prop.
  Definition given (v : pyval oid) : Prop := atom v \/ exists i l, v = PyList i l /\ own i /\ Forall atom l.
  Definition tidy (new : supply oid) (m : metric oid) : Prop :=
    canon (new // "value") (me_value m) /\ exists d, me_parameters m = params new d /\ Forall (fun kv => given (snd kv)) d.
  Definition makes (mk : maker oid) : Prop := forall new m, mk new = Some m -> tidy new m.
  Lemma make_tidy new ty v d m : make ty v (params new d) = Some m -> canon (new // "value") v -> Forall (fun kv => given (snd kv)) d -> tidy new m.
  Proof. unfold make. destruct (value_type v && string_keys _); [|discriminate]. intros [= <-] H1 H2. split; [exact H1|]. exists d. split; [reflexivity|exact H2]. Qed.
  Lemma vdict_canon new d : Forall (fun kv => canon (below (new // "value") (Key (fst kv))) (snd kv)) d -> canon (new // "value") (vdict new d).
  Proof. exact (canon_dict (new // "value") d). Qed.

  Lemma listing_tidy new ty ms l n m : listing new ty ms = Some l -> Forall makes ms -> nth_error l n = Some m ->
    tidy (below (below new (Key (Some ty))) (At n)) m.
  Proof.
    unfold listing. intros E F Hn. apply (all_some_nth _ _ _ _ E) in Hn. rewrite imap_nth in Hn. destruct (nth_error ms n) as [mk|] eqn:Em; [|discriminate]. cbn in Hn.
    injection Hn as Hn. apply (proj1 (Forall_forall _ _) F mk (nth_error_In _ _ Em)). exact Hn.
  Qed.
  Lemma realise_tidy new d r k ms : realise new d = Some r -> Forall (fun kv => Forall makes (snd kv)) d -> In (k, ms) r ->
    forall n m, nth_error ms n = Some m -> tidy (below (below new (Key (Some k))) (At n)) m.
  Proof.
    unfold realise. intros E F H. apply (all_some_In _ _ _ E) in H. apply in_map_iff in H. destruct H as ([k' mk] & Hx & Hin). cbn [fst snd] in Hx.
    destruct (listing new k' mk) as [l|] eqn:El; [|discriminate]. cbn in Hx. injection Hx as -> ->.
    intros n m Hn. eapply listing_tidy; [exact El| |exact Hn]. exact (proj1 (Forall_forall _ _) F (k, mk) Hin).
  Qed.
End Own.
Ltac gv := cbn [snd]; first [left; at0 | assumption].
Ltac cn := first [apply atom_canon; at0 | apply vdict_canon; atoms; cbn [fst snd]; try (apply atom_canon; at0)].
Ltac mk E := eapply make_tidy; [exact E| try cn | atoms; try gv].

Definition all_tidy (c : nat) (own : oid -> Prop) (r : report oid) : Prop :=
  forall k ms n m, In (k, ms) r -> nth_error ms n = Some m -> tidy own (below (below (Made c) (Key (Some k))) (At n)) m.
Lemma tidy_listing c own ty ms l : listing (Made c) ty ms = Some l -> Forall (makes own) ms -> all_tidy c own [(ty, l)].
Proof. intros E F k ms' n m [[= <- <-]|[]] Hn. eapply listing_tidy; [exact E|exact F|exact Hn]. Qed.
Lemma tidy_realise c own d r : realise (Made c) d = Some r -> Forall (fun kv => Forall (makes own) (snd kv)) d -> all_tidy c own r.
Proof. intros E F k ms n m Hk Hn. eapply realise_tidy; [exact E|exact F|exact Hk|exact Hn]. Qed.

Theorem returned_tidy c own r : returned c own r -> all_tidy c own r.
Proof.
  intros R. destruct R as [tol hm thrs datums e r E|e r E|tol9 hm thrs datums e l E|tol9 hm thrs datums limit offset e l E|tol9 hm thrs datums e l E
    |eps e datums i s ious scores r E|eps ious scores datums e l E|eps ious scores datums limit offset e l E|eps ious scores datums e l E|ed e r E].
  - unfold cls_precision_recall in E. destruct (report_metrics _ _ _ _ _) as [m|]; [|discriminate]. eapply tidy_realise; [exact E|].
    constructor; [apply Forall_map_in; intros x new m' H; unfold cls_accuracy in H; mk H|]. apply appended_Forall. atoms; cbn [snd]; apply Forall_map_in; intros x new m' H;
        (destruct (snd x); [|discriminate]); unfold cls_count, cls_labelled in H; mk H.
  - eapply tidy_realise; [exact E|]. atoms; cbn [snd]; [apply Forall_map_in; intros x|atoms]; intros new m H.
    + destruct (snd x); [|discriminate]. unfold cls_roc_auc in H. mk H.
    + unfold cls_mean_roc_auc in H. mk H.
  - unfold cls_confusion_report in E. destruct (report_confusion _ _ _ _ _) as [x|]; [|discriminate]. eapply tidy_listing; [exact E|]. apply Forall_map_in. intros y new m H.
    unfold cls_matrix in H. mk H; [apply count_table_canon|apply count_dict_canon].
  - unfold cls_examples_report in E. destruct (cls_examples _ _ _ _ _ _ _) as [x|]; [|discriminate]. eapply tidy_listing; [exact E|]. apply Forall_map_in. intros y new m H.
    destruct (nx_uid y); [|discriminate]. destruct (olist _ (nx_tp y)) eqn:E1; [|discriminate]. destruct (olist _ (nx_fp y)) eqn:E2; [|discriminate]. destruct (olist _ (nx_fn y)) eqn:E3; [|discriminate].
    unfold cls_example in H. mk H; eapply olist_canon; eassumption.
  - unfold cls_confusion_examples_report in E. destruct (cls_confusion_examples _ _ _ _ _) as [x|]; [|discriminate]. eapply tidy_listing; [exact E|]. apply Forall_map_in. intros y new m H.
    destruct (snd y); [|discriminate]. destruct (cells_table _ _ _) eqn:E1; [|discriminate]. destruct (cells_dict _ _ _) eqn:E2; [|discriminate].
    unfold cls_matrix_examples in H. mk H; [eapply table_canon; [|exact E1]|eapply cells_canon; [|exact E2]].
    + intros n [[u|] [s|]] v Hv; try discriminate. eapply record_canon; [exact Hv|]. intros kv [<-|[<-|[]]]; at0.
    + intros n [u|] v Hv; try discriminate. eapply record_canon; [exact Hv|]. intros kv [<-|[]]; at0.
  - unfold det_precision_recall in E. cbv zeta in E. destruct ious as [|i0 ious0] eqn:Ei; [discriminate|]. destruct scores as [|s0 scores0] eqn:Es; [discriminate|]. rewrite <- Ei, <- Es in *.
    assert (Hi : given (fun x => x = Mine i \/ x = Mine s) (PyList (Mine i) (map PyScore ious))).
    { right. do 2 eexists. split; [reflexivity|]. split; [left; reflexivity|]. apply Forall_map_in. intros x. at0. }
    assert (Hs : given (fun x => x = Mine i \/ x = Mine s) (PyList (Mine s) (map PyScore scores))).
    { right. do 2 eexists. split; [reflexivity|]. split; [right; reflexivity|]. apply Forall_map_in. intros x. at0. }
    eapply tidy_realise; [exact E|]. apply Forall_app. split; [|apply appended_Forall].
    + atoms; cbn [snd]; atoms; try (apply Forall_flat_map_in; intros x); try apply Forall_map_in; intros *;
        intros new m H; try (destruct (indexed _ _ _); [|discriminate]);
        try (unfold det_ap, det_map, det_ap_avg, det_map_avg, det_ar, det_mar, det_ar_avg, det_mar_avg, det_curve in H; mk H); (apply atoms_canon; intros v Hv; apply in_map_iff in Hv; destruct Hv as (y & <- & _); at0).
    + atoms; cbn [snd]; unfold det_labelled_makers; do 2 (apply Forall_flat_map_in; intros ?); apply Forall_map_in; intros t new m H; (destruct (indexed _ _ _); [|discriminate]);
        unfold det_count, det_labelled in H; mk H.
  - unfold det_confusion_report in E. destruct (det_confusion_metrics _ _ _ _ _) as [x|]; [|discriminate]. eapply tidy_listing; [exact E|]. apply Forall_map_in. intros y new m H.
    unfold det_matrix in H. mk H; [apply count_table_canon|apply count_dict_canon|apply count_dict_canon].
  - unfold det_examples_report in E. destruct (det_examples _ _ _ _ _ _ _) as [x|]; [|discriminate]. eapply tidy_listing; [exact E|]. apply Forall_map_in. intros [[[u t] s] ex] new m H.
    destruct u; [|discriminate]. destruct (pair_list _ _) eqn:E1; [|discriminate]. destruct (uid_list _ (dx_fp ex)) eqn:E2; [|discriminate]. destruct (uid_list _ (dx_fn ex)) eqn:E3; [|discriminate].
    unfold det_exmetric in H. mk H; [eapply pair_list_canon|eapply uid_list_canon|eapply uid_list_canon]; eassumption.
  - unfold det_confusion_examples_report in E. destruct (det_confusion_examples _ _ _ _ _) as [x|]; [|discriminate]. eapply tidy_listing; [exact E|]. apply Forall_map_in. intros y new m H.
    destruct (snd y) as [M|]; [|discriminate]. destruct (cells_table _ _ _) eqn:E1; [|discriminate]. destruct (cells_dict _ _ (dx_pds M)) eqn:E2; [|discriminate]. destruct (cells_dict _ _ (dx_gts M)) eqn:E3; [|discriminate].
    unfold det_matrix in H. mk H; [eapply table_canon; [|exact E1]|eapply cells_canon; [|exact E2]|eapply cells_canon; [|exact E3]];
      intros n a v Hv; (eapply record_canon; [exact Hv|]); intros kv Hk; cbn [In] in Hk; intuition (subst; cbn [snd]; at0).
  - unfold seg_metrics in E. destruct (SegModel.seg_compute _ _) as [x|]; [|discriminate]. eapply tidy_realise; [exact E|]. apply Forall_app. split; [|apply appended_Forall].
    + atoms; cbn [snd]; atoms; intros new m H.
      * unfold seg_overall in H. mk H.
      * unfold seg_matrix_metric in H. mk H; [|apply rate_dict_canon|apply rate_dict_canon]. apply canon_dict. apply Forall_map_in. intros y. apply rate_dict_canon.
      * unfold seg_overall in H. mk H.
    + atoms; cbn [snd]; apply Forall_map_in; intros y new m H; unfold seg_labelled in H; mk H.
Qed.

(* ---------------------------------------------------------------- no object twice *)
Lemma in_go_list {I J} (new : supply J) (l : list (pyval I)) k i :
  In i (flat_map ids ((fix go (n : nat) (l : list (pyval I)) : list (pyval J) := match l with [] => [] | x :: t => copy (below new (At n)) x :: go (S n) t end) k l)) ->
  exists n p, k <= n /\ i = new (At n :: p).
Proof.
  revert k. induction l as [|x l IH]; intros k H; [destruct H|]. cbn in H. apply in_app_or in H. destruct H as [H|H].
  - apply copy_ids in H. destruct H as (p & ->). exists k, p. split; [lia|reflexivity].
  - destruct (IH (S k) H) as (n & p & Hn & E). exists n, p. split; [lia|exact E].
Qed.
Lemma in_go_dict {I J} (new : supply J) (d : list (pkey * pyval I)) i :
  In i (flat_map (fun kv => ids (snd kv)) ((fix go (d : list (pkey * pyval I)) : list (pkey * pyval J) := match d with [] => [] | (k, x) :: t => (k, copy (below new (Key k)) x) :: go t end) d)) ->
  exists k p, In k (map fst d) /\ i = new (Key k :: p).
Proof.
  induction d as [|[k x] d IH]; intros H; [destruct H|]. cbn in H. apply in_app_or in H. destruct H as [H|H].
  - apply copy_ids in H. destruct H as (p & ->). exists k, p. split; [left; reflexivity|reflexivity].
  - destruct (IH H) as (k' & p & Hk & E). exists k', p. split; [right; exact Hk|exact E].
Qed.
Lemma nodup_two {X} (l1 l2 : list X) : NoDup l1 -> NoDup l2 -> (forall x, In x l1 -> In x l2 -> False) -> NoDup (l1 ++ l2).
Proof.
  induction 1 as [|a l1 Ha _ IH]; intros H2 D; [exact H2|]. cbn [app]. constructor.
  - rewrite in_app_iff. intros [X0|X0]; [exact (Ha X0)|exact (D a (or_introl eq_refl) X0)].
  - apply IH; [exact H2|]. intros x X0. apply D. right. exact X0.
Qed.
Lemma fold_all {X} (P : X -> Prop) l : fold_right (fun x p => P x /\ p) True l -> Forall P l.
Proof. induction l as [|x l IH]; intros H; [constructor|]. destruct H as [H1 H2]. constructor; auto. Qed.
Lemma copy_nodup {I J} (v : pyval I) : forall new : supply J, (forall p p', new p = new p' -> p = p') -> proper v -> NoDup (ids (copy new v)).
Proof.
  assert (L : forall (l : list (pyval I)), Forall (fun v => forall new : supply J, (forall p p', new p = new p' -> p = p') -> proper v -> NoDup (ids (copy new v))) l ->
    forall new : supply J, (forall p p', new p = new p' -> p = p') -> Forall proper l -> forall k,
    NoDup (flat_map ids ((fix go (n : nat) (l : list (pyval I)) : list (pyval J) := match l with [] => [] | x :: t => copy (below new (At n)) x :: go (S n) t end) k l))).
  { intros l F new inj. induction F as [|x l Hx _ IH]; intros P k; [constructor|]. inversion P as [|? ? P1 P2]; subst. cbn. apply nodup_two.
    - apply Hx; [|exact P1]. intros p p' E. apply inj in E. injection E as ->. reflexivity.
    - apply IH. exact P2.
    - intros i H1 H2. apply copy_ids in H1. destruct H1 as (p & ->). apply in_go_list in H2. destruct H2 as (n & p' & Hn & E). apply inj in E. injection E as E _. lia. }
  induction v using value_ind; intros new inj P; cbn; try constructor.
  - apply L; [exact H|exact inj|apply fold_all; exact P].
  - intros Hi. apply in_go_list in Hi. destruct Hi as (n & p & _ & E). apply inj in E. discriminate.
  - apply L; [exact H|exact inj|apply fold_all; exact P].
  - intros Hi. apply in_go_dict in Hi. destruct Hi as (k & p & _ & E). apply inj in E. discriminate.
  - destruct P as [N P]. apply (fold_all (fun kv => proper (snd kv))) in P. induction H as [|[k x] d Hx _ IH]; [constructor|]. inversion P as [|? ? P1 P2]; subst. cbn in N. inversion N as [|? ? N1 N2]; subst.
    cbn. apply nodup_two.
    + apply Hx; [|exact P1]. intros p p' E. apply inj in E. injection E as ->. reflexivity.
    + apply IH; assumption.
    + intros j H1 H2. apply copy_ids in H1. destruct H1 as (p & ->). apply in_go_dict in H2. destruct H2 as (k' & p' & Hk & E). apply inj in E. injection E as -> _. exact (N1 Hk).
Qed.
Lemma split_app {X} (a b l1 l2 : list X) i : a ++ b = l1 ++ i :: l2 ->
  (exists a2, a = l1 ++ i :: a2 /\ l2 = a2 ++ b) \/ (exists b1, l1 = a ++ b1 /\ b = b1 ++ i :: l2).
Proof.
  revert l1. induction a as [|x a IH]; intros l1 E; [right; exists l1; split; [reflexivity|exact E]|].
  destruct l1 as [|y l1]; cbn in E; injection E as -> E; [left; exists a; split; [reflexivity|symmetry; exact E]|].
  destruct (IH l1 E) as [(a2 & -> & ->)|(b1 & -> & ->)]; [left; exists a2; split; reflexivity|right; exists b1; split; reflexivity].
Qed.
Lemma once_nodup {X} (own : X -> Prop) l : NoDup l -> once own l.
Proof. intros N l1 i l2 -> H. apply NoDup_remove_2 in N. destruct (N H). Qed.
Lemma once_app {X} (own : X -> Prop) a b : once own a -> once own b -> (forall i, In i a -> In i b -> own i) -> once own (a ++ b).
Proof.
  intros A B D l1 i l2 E H. destruct (split_app a b l1 l2 i E) as [(a2 & -> & ->)|(b1 & -> & ->)].
  - rewrite app_assoc in H. apply in_app_or in H. destruct H as [H|H]; [exact (A l1 i a2 eq_refl H)|]. apply (D i); [apply in_or_app; right; left; reflexivity|exact H].
  - rewrite <- app_assoc in H. apply in_app_or in H. destruct H as [H|H]; [apply (D i H); apply in_or_app; right; left; reflexivity|]. exact (B b1 i l2 eq_refl H).
Qed.
Lemma given_ids own d i : Forall (fun kv : pkey * pyval oid => given own (snd kv)) d -> In i (flat_map (fun kv => ids (snd kv)) d) -> own i.
Proof.
  intros F H. apply in_flat_map in H. destruct H as (kv & Hk & H). destruct (proj1 (Forall_forall _ _) F kv Hk) as [A|(j & l & E & O & A)].
  - rewrite (proj2 (A (fun _ => Mine 0))) in H. destruct H.
  - rewrite E in H. destruct H as [<-|H]; [exact O|]. apply in_flat_map in H. destruct H as (x & Hx & H). rewrite (proj2 (proj1 (Forall_forall _ _) A x Hx (fun _ => Mine 0))) in H. destruct H.
Qed.
Theorem inside c own r k n m : returned c own r -> metric_at r k n m -> proper (me_value m) -> once own (mids m).
Proof.
  intros R (ms & Hk & Hn) P. destruct (returned_tidy c own r R k ms n m Hk Hn) as (V & d & EP & F).
  assert (inj : forall s p p', (below (below (Made c) (Key (Some k))) (At n) // s) p = (below (below (Made c) (Key (Some k))) (At n) // s) p' -> p = p').
  { intros s p p' E. unfold below in E. injection E as ->. reflexivity. }
  unfold mids. rewrite EP. apply once_app.
  - apply once_nodup. unfold canon in V. rewrite <- V. apply copy_nodup; [apply inj|exact P].
  - unfold params. cbn [ids]. intros l1 i l2 E H. destruct l1 as [|j l1]; cbn in E; injection E as <- E.
    + cbn in H. rewrite <- E in H. exact (given_ids own d _ F H).
    + apply (given_ids own d i F). rewrite E. apply in_or_app. right. left. reflexivity.
  - intros i H1 H2. unfold canon in V. rewrite <- V in H1. apply copy_ids in H1. destruct H1 as (p & ->). unfold params in H2. cbn [ids] in H2. destruct H2 as [E|H2]; [|exact (given_ids own d _ F H2)].
    unfold below in E. discriminate E.
Qed.
Theorem dict_inside {I} c (m : metric I) : proper (me_value m) -> proper (me_parameters m) -> NoDup (ids (to_dict (Made c) m)).
Proof.
  intros P1 P2. assert (inj : forall s p p', (Made c // s) p = (Made c // s) p' -> p = p') by (intros s p p' E; unfold below in E; injection E as ->; reflexivity).
  unfold to_dict. cbn [ids flat_map snd]. rewrite !app_nil_r. cbn [app]. constructor.
  - intros H. apply in_app_or in H. destruct H as [H|H]; apply copy_ids in H; destruct H as (p & E); unfold below in E; discriminate.
  - apply nodup_two; [apply copy_nodup; [apply inj|exact P1]|apply copy_nodup; [apply inj|exact P2]|].
    intros i H1 H2. apply copy_ids in H1, H2. destruct H1 as (p & ->), H2 as (p' & E). unfold below in E. discriminate.
Qed.
