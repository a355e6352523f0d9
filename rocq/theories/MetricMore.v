(* Telling metrics apart, JSON, and the objects inside metrics. *)
From Verif Require Import Prelude PageSpec Counting CacheModel ClsModel ClsSpec RocModel FlowModel ClsReportModel ClsPageModel ClsCellModel
  DetModel DetExModel DetSpec DetFlowModel DetReportModel DetScoreModel DetEnd DetTurnSpec DetCellModel MetricModel MetricSpec MetricProofs MetricDet.
From Verif Require SegModel SegSpec.
From Coq Require Import String QArith Lia.
Local Notation length := List.length (only parsing).
Local Open Scope nat_scope.
Local Open Scope list_scope.

(* ---------------------------------------------------------------- induction on values *)
Section Induction.
  Context {I : Type} (P : pyval I -> Prop).
  Hypothesis (H0 : P PyNone) (H1 : forall b, P (PyBool b)) (H2 : forall z, P (PyInt z)) (H3 : forall q, P (PyFloat q)) (H4 : forall z, P (PyScore z))
    (H5 : P PyNan) (H6 : forall s, P (PyStr s)) (H7 : forall l, Forall P l -> P (PyTuple l)) (H8 : forall i l, Forall P l -> P (PyList i l))
    (H9 : forall i d, Forall (fun kv => P (snd kv)) d -> P (PyDict i d)).
  Fixpoint value_ind (v : pyval I) : P v :=
    match v with
    | PyNone => H0 | PyBool b => H1 b | PyInt z => H2 z | PyFloat q => H3 q | PyScore z => H4 z | PyNan => H5 | PyStr s => H6 s
    | PyTuple l => H7 l ((fix go (l : list (pyval I)) : Forall P l := match l with [] => Forall_nil _ | x :: t => Forall_cons _ (value_ind x) (go t) end) l)
    | PyList i l => H8 i l ((fix go (l : list (pyval I)) : Forall P l := match l with [] => Forall_nil _ | x :: t => Forall_cons _ (value_ind x) (go t) end) l)
    | PyDict i d => H9 i d ((fix go (d : list (pkey * pyval I)) : Forall (fun kv => P (snd kv)) d :=
        match d with [] => Forall_nil _ | x :: t => Forall_cons _ (value_ind (snd x)) (go t) end) d)
    end.
End Induction.

(* ---------------------------------------------------------------- type and parameters *)
Lemma field_type ty v ps : field (document ty v ps) "type" = Some (PyStr ty). Proof. reflexivity. Qed.
Lemma field_params ty v ps : field (document ty v ps) "parameters" = Some (obj ps). Proof. reflexivity. Qed.
Lemma obj_inj ps ps' : obj ps = obj ps' -> ps = ps'.
Proof.
  unfold obj. intros H. injection H as H. revert ps' H. induction ps as [|[k v] ps IH]; intros [|[k' v'] ps'] H; try discriminate; [reflexivity|].
  cbn in H. injection H as <- <- H. f_equal. apply IH. exact H.
Qed.
Lemma identified_map {X} ty (V : X -> doc) (P : X -> list (string * doc)) xs :
  (forall x x', In x xs -> In x' xs -> P x = P x' -> V x = V x') -> identified (map (fun x => document ty (V x) (P x)) xs).
Proof.
  intros H d d' Hd Hd' _ E. apply in_map_iff in Hd, Hd'. destruct Hd as (x & <- & Hx), Hd' as (x' & <- & Hx').
  rewrite !field_params in E. injection E as E. assert (E' := obj_inj _ _ (f_equal (PyDict tt) E)). rewrite E', (H x x' Hx Hx' E'). reflexivity.
Qed.
Lemma each_prod {X Y Z} (xs : list X) (ys : list Y) (f : X -> Y -> Z) : each xs ys f = map (fun p => f (fst p) (snd p)) (list_prod xs ys).
Proof. unfold each. induction xs as [|x xs IH]; [reflexivity|]. cbn. rewrite map_app, map_map, IH. reflexivity. Qed.
Lemma filed_iff r : filed r <-> Forall (fun kd => Forall (fun d => field d "type" = Some (PyStr (fst kd))) (snd kd)) r.
Proof.
  unfold filed. rewrite Forall_forall. split.
  - intros H [k ds] Hk. apply Forall_forall. intros d Hd. exact (H k ds d Hk Hd).
  - intros H k ds d Hk Hd. exact (proj1 (Forall_forall _ _) (H (k, ds) Hk) d Hd).
Qed.
Lemma filed_map {X} ty (V : X -> doc) (P : X -> list (string * doc)) xs : Forall (fun d => field d "type" = Some (PyStr ty)) (map (fun x => document ty (V x) (P x)) xs).
Proof. apply Forall_forall. intros d Hd. apply in_map_iff in Hd. destruct Hd as (x & <- & _). apply field_type. Qed.
Lemma identified_all r : filed r -> NoDup (map fst r) -> (forall k ds, In (k, ds) r -> identified ds) -> identified (all_docs r).
Proof.
  intros F N H d d' Hd Hd' E1 E2. unfold all_docs in *. apply in_flat_map in Hd, Hd'. destruct Hd as ([k ds] & Hk & Hd), Hd' as ([k' ds'] & Hk' & Hd'). cbn [snd] in *.
  rewrite (F k ds d Hk Hd), (F k' ds' d' Hk' Hd') in E1. injection E1 as <-.
  assert (ds = ds') as <-.
  { clear - N Hk Hk'. induction r as [|[a b] r IH]; [destruct Hk|]. cbn in N. inversion N as [|? ? N1 N2]; subst. destruct Hk as [Hk|Hk], Hk' as [Hk'|Hk'].
    - congruence.
    - injection Hk as -> ->. destruct N1. apply (in_map fst) in Hk'. exact Hk'.
    - injection Hk' as -> ->. destruct N1. apply (in_map fst) in Hk. exact Hk.
    - apply IH; assumption. }
  apply (H k ds Hk d d' Hd Hd'); [rewrite (F k ds d Hk Hd), (F k ds d' Hk Hd'); reflexivity|exact E2].
Qed.

Section Cls.
  Variable hm : bool.
  Lemma for_label_inj l t l' t' : for_label hm l t = for_label hm l' t' -> l = l' /\ t = t'.
  Proof. unfold for_label, at_threshold. intros H. cbn in H. injection H as <- <-. split; reflexivity. Qed.
  Lemma at_threshold_inj t t' : at_threshold hm t = at_threshold hm t' -> t = t'.
  Proof. unfold at_threshold. intros H. injection H as <-. reflexivity. Qed.
  Lemma each_identified ty (V : string -> Z -> doc) ls thrs : identified (each ls thrs (fun l t => document ty (V l t) (for_label hm l t))).
  Proof.
    rewrite each_prod. apply (identified_map ty (fun p => V (fst p) (snd p)) (fun p => for_label hm (fst p) (snd p))).
    intros [l t] [l' t'] _ _ H. apply for_label_inj in H. destruct H as [E1 E2]. cbn in *. congruence.
  Qed.
  Lemma each_filed ty (V : string -> Z -> doc) ls thrs : Forall (fun d => field d "type" = Some (PyStr ty)) (each ls thrs (fun l t => document ty (V l t) (for_label hm l t))).
  Proof. rewrite each_prod. apply (filed_map ty (fun p => V (fst p) (snd p)) (fun p => for_label hm (fst p) (snd p))). Qed.
  Theorem cls_told_apart ls thrs acc c : filed (cls_documents hm ls thrs acc c) /\ identified (all_docs (cls_documents hm ls thrs acc c)).
  Proof.
    assert (F : filed (cls_documents hm ls thrs acc c)).
    { apply filed_iff. unfold cls_documents. constructor; [apply (filed_map "Accuracy" (fun t => PyFloat (acc t)) (fun t => at_threshold hm t))|].
      destruct ls; cbn [if_any]; [constructor|]. repeat constructor; cbn [fst snd]; apply each_filed. }
    split; [exact F|]. apply identified_all; [exact F| |].
    - unfold cls_documents. destruct ls; cbn; repeat constructor; cbn; intuition discriminate.
    - unfold cls_documents. intros k ds H. destruct H as [H|H].
      + injection H as <- <-. apply (identified_map "Accuracy" (fun t => PyFloat (acc t)) (fun t => at_threshold hm t)). intros t t' _ _ E. apply at_threshold_inj in E. congruence.
      + destruct ls; [destruct H|]. cbn [if_any In] in H. destruct H as [H|[H|[H|[H|[]]]]]; injection H as <- <-.
        * exact (each_identified "Counts" (fun l t => counts_doc (c l t)) (s :: ls) thrs).
        * exact (each_identified "Precision" (fun l t => PyFloat (precision (c l t))) (s :: ls) thrs).
        * exact (each_identified "Recall" (fun l t => PyFloat (recall (c l t))) (s :: ls) thrs).
        * exact (each_identified "F1" (fun l t => PyFloat (f1 (precision (c l t)) (recall (c l t)))) (s :: ls) thrs).
  Qed.
  Lemma prefixes_nodup thrs : NoDup thrs -> forall p p', In p (prefixes thrs) -> In p' (prefixes thrs) -> snd p = snd p' -> p = p'.
  Proof.
    intros N p p' H H' E. unfold prefixes in *. apply in_map_iff in H, H'. destruct H as ([k t] & <- & H), H' as ([k' t'] & <- & H'). cbn [fst snd] in *. subst t'.
    apply In_nth_error in H, H'. destruct H as (a & H), H' as (b & H'). rewrite nth_indexed in H, H'.
    destruct (nth_error thrs a) as [x|] eqn:Ea; [|discriminate]. destruct (nth_error thrs b) as [y|] eqn:Eb; [|discriminate]. cbn in H, H'. injection H as <- <-. injection H' as <- <-.
    assert (a = b) as <-; [|reflexivity]. apply (proj1 (NoDup_nth_error thrs) N); [apply nth_error_Some; congruence|congruence].
  Qed.
  Theorem prefixes_told_apart ty (V : list Z -> Z -> doc) thrs : NoDup thrs ->
    identified (map (fun p => document ty (V (fst p) (snd p)) (at_threshold hm (snd p))) (prefixes thrs)).
  Proof.
    intros N. apply (identified_map ty (fun p => V (fst p) (snd p)) (fun p => at_threshold hm (snd p))). intros p p' H H' E. apply at_threshold_inj in E.
    rewrite (prefixes_nodup thrs N p p' H H' E). reflexivity.
  Qed.
End Cls.

Definition triples (ls : list (nat * string)) (ious scores : list Z) : list (nat * string * (Z * Z)) := list_prod ls (list_prod scores ious).
Lemma triples_map {X} ls ious scores (f : nat * string -> Z -> Z -> X) :
  flat_map (fun l => flat_map (fun s => map (fun t => f l t s) ious) scores) ls = map (fun x => f (fst x) (snd (snd x)) (fst (snd x))) (triples ls ious scores).
Proof.
  unfold triples. induction ls as [|l k IH]; [reflexivity|]. cbn [flat_map list_prod]. rewrite map_app, map_map, IH. f_equal. cbn [fst snd].
  fold (each scores ious (fun s t => f l t s)). rewrite each_prod. reflexivity.
Qed.
Section Det.
  Variables (ls : list (nat * string)) (eps : Z) (e : deval) (datums : drow -> bool).
  Hypothesis Hnd : NoDup (map snd ls).
  Lemma label_once l l' : In l ls -> In l' ls -> snd l = snd l' -> l = l'.
  Proof.
    intros H H' E. apply In_nth_error in H, H'. destruct H as (a & H), H' as (b & H'). assert (a = b) as <-; [|congruence].
    apply (proj1 (NoDup_nth_error (map snd ls)) Hnd); [rewrite map_length; apply nth_error_Some; congruence|]. rewrite !nth_error_map, H, H'. cbn. congruence.
  Qed.
  Theorem det_told_apart ious scores : filed (det_documents ls ious scores eps e datums) /\ identified (all_docs (det_documents ls ious scores eps e datums)).
  Proof.
    assert (F : filed (det_documents ls ious scores eps e datums)).
    { apply filed_iff. unfold det_documents. cbv zeta. apply Forall_app. split.
      - repeat apply Forall_cons; try apply Forall_nil; cbn [fst snd]; rewrite ?each_prod; try apply field_type;
          apply Forall_forall; intros d Hd; apply in_map_iff in Hd; destruct Hd as (x & <- & _); apply field_type.
      - assert (Forall (fun kd : string * list doc => Forall (fun d => field d "type" = Some (PyStr (fst kd))) (snd kd)) []) as Hn by constructor.
        unfold if_any. destruct ls as [|l0 ls0] eqn:El; [exact Hn|]. rewrite <- El.
        repeat apply Forall_cons; try apply Forall_nil; cbn [fst snd]; rewrite triples_map;
          apply Forall_forall; intros d Hd; apply in_map_iff in Hd; destruct Hd as (x & <- & _); apply field_type. }
    split; [exact F|]. apply identified_all; [exact F| |].
    - unfold det_documents. cbv zeta. destruct ls; cbn; repeat constructor; cbn; intuition discriminate.
    - unfold det_documents. cbv zeta. intros k ds H. apply in_app_or in H. destruct H as [H|H].
      + cbn [In] in H. destruct H as [H|[H|[H|[H|[H|[H|[H|[H|[H|[]]]]]]]]]]; injection H as <- <-; rewrite ?each_prod.
        * apply (identified_map "AP" (fun p => PyFloat (rep_ap eps e datums (fst p) (Z.of_nat (fst (snd p))))) (fun p => [("iou_threshold"%string, PyScore (fst p)); ("label"%string, PyStr (snd (snd p)))])).
          intros [t l] [t' l'] H H' E. apply in_prod_iff in H, H'. cbn [fst snd] in *. injection E as <- E. assert (l = l') as <- by (apply label_once; tauto). reflexivity.
        * apply (identified_map "mAP" (fun t => mean_doc (rep_map eps e datums t)) (fun t => [("iou_threshold"%string, PyScore t)])). intros t t' _ _ E. injection E as <-. reflexivity.
        * apply (identified_map "APAveragedOverIOUs" (fun l => mean_doc (rep_ap_over_ious eps e datums ious (Z.of_nat (fst l)))) (fun l => [("iou_thresholds"%string, scores_doc ious); ("label"%string, PyStr (snd l))])).
          intros l l' H H' E. injection E as E. assert (l = l') as <- by (apply label_once; assumption). reflexivity.
        * intros d d' [<-|[]] [<-|[]] _ _. reflexivity.
        * apply (identified_map "AR" (fun p => mean_doc (rep_ar eps e datums ious (fst p) (Z.of_nat (fst (snd p))))) (fun p => [("iou_thresholds"%string, scores_doc ious); ("score_threshold"%string, PyScore (fst p)); ("label"%string, PyStr (snd (snd p)))])).
          intros [t l] [t' l'] H H' E. apply in_prod_iff in H, H'. cbn [fst snd] in *. injection E as <- E. assert (l = l') as <- by (apply label_once; tauto). reflexivity.
        * apply (identified_map "mAR" (fun s => mean_doc (rep_mar eps e datums ious s)) (fun s => [("iou_thresholds"%string, scores_doc ious); ("score_threshold"%string, PyScore s)])). intros t t' _ _ E. injection E as <-. reflexivity.
        * apply (identified_map "ARAveragedOverScores" (fun l => mean_doc (qmean_all (map (fun s => rep_ar eps e datums ious s (Z.of_nat (fst l))) scores)))
            (fun l => [("iou_thresholds"%string, scores_doc ious); ("score_thresholds"%string, scores_doc scores); ("label"%string, PyStr (snd l))])).
          intros l l' H H' E. injection E as E. assert (l = l') as <- by (apply label_once; assumption). reflexivity.
        * intros d d' [<-|[]] [<-|[]] _ _. reflexivity.
        * apply (identified_map "PrecisionRecallCurve" (fun p => obj [("precisions", arr (map PyFloat (rep_pr_curve eps e datums (fst p) (Z.of_nat (fst (snd p)))))); ("scores", scores_doc (rep_pr_scores eps e datums (fst p) (Z.of_nat (fst (snd p)))))]%string)
            (fun p => [("iou_threshold"%string, PyScore (fst p)); ("label"%string, PyStr (snd (snd p)))])).
          intros [t l] [t' l'] H H' E. apply in_prod_iff in H, H'. cbn [fst snd] in *. injection E as <- E. assert (l = l') as <- by (apply label_once; tauto). reflexivity.
      + assert (In (k, ds) [("Counts"%string, flat_map (fun l => flat_map (fun s => map (fun t => document "Counts"
        (obj [("tp", int (rep_tp eps e datums t s (Z.of_nat (fst l)))); ("fp", int (rep_fp eps e datums t s (Z.of_nat (fst l)))); ("fn", PyInt (rep_fn eps e datums t s (Z.of_nat (fst l))))]%string)
        [("iou_threshold", PyScore t); ("score_threshold", PyScore s); ("label", PyStr (snd l))]%string) ious) scores) ls);
      ("Precision"%string, flat_map (fun l => flat_map (fun s => map (fun t => document "Precision" (PyFloat (rep_precision eps e datums t s (Z.of_nat (fst l)))) (det_params (snd l) t s)) ious) scores) ls);
      ("Recall"%string, flat_map (fun l => flat_map (fun s => map (fun t => document "Recall" (PyFloat (rep_recall eps e datums t s (Z.of_nat (fst l)))) (det_params (snd l) t s)) ious) scores) ls);
      ("F1"%string, flat_map (fun l => flat_map (fun s => map (fun t => document "F1" (PyFloat (rep_f1 eps e datums t s (Z.of_nat (fst l)))) (det_params (snd l) t s)) ious) scores) ls)]) as H'
          by (destruct ls; [destruct H|exact H]). clear H.
        cbn [In] in H'. destruct H' as [H|[H|[H|[H|[]]]]]; injection H as <- <-; rewrite triples_map.
        * apply (identified_map "Counts" (fun x => obj [("tp", int (rep_tp eps e datums (snd (snd x)) (fst (snd x)) (Z.of_nat (fst (fst x))))); ("fp", int (rep_fp eps e datums (snd (snd x)) (fst (snd x)) (Z.of_nat (fst (fst x)))));
              ("fn", PyInt (rep_fn eps e datums (snd (snd x)) (fst (snd x)) (Z.of_nat (fst (fst x)))))]%string)
            (fun x => [("iou_threshold", PyScore (snd (snd x))); ("score_threshold", PyScore (fst (snd x))); ("label", PyStr (snd (fst x)))]%string)).
          intros [l [s t]] [l' [s' t']] H H' E. apply in_prod_iff in H, H'. cbn [fst snd] in *. injection E as <- <- E. assert (l = l') as <- by (apply label_once; tauto). reflexivity.
        * apply (identified_map "Precision" (fun x => PyFloat (rep_precision eps e datums (snd (snd x)) (fst (snd x)) (Z.of_nat (fst (fst x))))) (fun x => det_params (snd (fst x)) (snd (snd x)) (fst (snd x)))).
          intros [l [s t]] [l' [s' t']] H H' E. apply in_prod_iff in H, H'. cbn [fst snd] in *. injection E as E <- <-. assert (l = l') as <- by (apply label_once; tauto). reflexivity.
        * apply (identified_map "Recall" (fun x => PyFloat (rep_recall eps e datums (snd (snd x)) (fst (snd x)) (Z.of_nat (fst (fst x))))) (fun x => det_params (snd (fst x)) (snd (snd x)) (fst (snd x)))).
          intros [l [s t]] [l' [s' t']] H H' E. apply in_prod_iff in H, H'. cbn [fst snd] in *. injection E as E <- <-. assert (l = l') as <- by (apply label_once; tauto). reflexivity.
        * apply (identified_map "F1" (fun x => PyFloat (rep_f1 eps e datums (snd (snd x)) (fst (snd x)) (Z.of_nat (fst (fst x))))) (fun x => det_params (snd (fst x)) (snd (snd x)) (fst (snd x)))).
          intros [l [s t]] [l' [s' t']] H H' E. apply in_prod_iff in H, H'. cbn [fst snd] in *. injection E as E <- <-. assert (l = l') as <- by (apply label_once; tauto). reflexivity.
  Qed.
End Det.
Theorem det_pairs_told_apart ty (V : Z -> Z -> doc) ious scores : identified (each ious scores (fun t s => document ty (V t s) (at_pair s t))).
Proof.
  rewrite each_prod. apply (identified_map ty (fun p => V (fst p) (snd p)) (fun p => at_pair (snd p) (fst p))). intros [t s] [t' s'] _ _ E. cbn in *. injection E as <- <-. reflexivity.
Qed.

(* ---------------------------------------------------------------- JSON *)
Lemma forallb_In {X} (f : X -> bool) l x : forallb f l = true -> In x l -> f x = true.
Proof. rewrite forallb_forall. auto. Qed.
Lemma json_plain (d : doc) : plain d = true -> json_trip d = d.
Proof.
  induction d using value_ind; cbn; intros P; try reflexivity; try discriminate.
  - destruct i. f_equal. rewrite <- (map_id l) at 2. apply map_ext_in. intros x Hx. exact (proj1 (Forall_forall _ _) H x Hx (forallb_In _ _ _ P Hx)).
  - destruct i. f_equal. rewrite <- (map_id d) at 2. apply map_ext_in. intros [k x] Hx. assert (Q := forallb_In _ _ _ P Hx). cbn in *. apply andb_true_iff in Q. destruct Q as [Q1 Q2].
    destruct k as [k|]; [|discriminate]. f_equal. exact (proj1 (Forall_forall _ _) H (Some k, x) Hx Q2).
Qed.
Lemma plain_eq (d : doc) : plain d = true -> py_eq d d.
Proof.
  induction d using value_ind; cbn; intros P; try reflexivity; try discriminate; try exact I.
  - induction l as [|x l IH]; [exact I|]. cbn in P. apply andb_true_iff in P. destruct P as [P1 P2]. inversion H; subst. split; [auto|]. apply IH; assumption.
  - induction d as [|[k x] d IH]; [exact I|]. cbn in P. apply andb_true_iff in P. destruct P as [P1 P2]. apply andb_true_iff in P1. destruct P1 as [P0 P1]. inversion H; subst.
    split; [reflexivity|]. split; [auto|]. apply IH; assumption.
Qed.
Theorem json_keeps d : plain d = true -> json_trip d = d /\ py_eq (json_trip d) d.
Proof. intros P. rewrite (json_plain d P). split; [reflexivity|apply plain_eq; exact P]. Qed.
Lemma plain_agree a b : agree a b -> plain a = plain b.
Proof.
  revert b. induction a using value_ind; intros y A; inversion A; subst; try reflexivity.
  cbn. clear A. match goal with F : Forall2 _ _ _ |- _ => induction F as [|[k x] [k' x'] l l' [E A] F IH]; [reflexivity|] end.
  cbn in *. inversion H as [|? ? P1 P2]; subst. cbn in P1. rewrite (P1 x' A), (IH P2). reflexivity.
Qed.
Lemma plain_obj l : plain (obj l) = forallb (fun x => plain (snd x)) l.
Proof. unfold obj. cbn. induction l as [|[k x] l IH]; [reflexivity|]. cbn in *. rewrite IH. reflexivity. Qed.
Lemma plain_arr l : plain (arr l) = forallb plain l. Proof. reflexivity. Qed.
Lemma plain_document ty v ps : plain (document ty v ps) = plain v && forallb (fun x => plain (snd x)) ps.
Proof. unfold document. rewrite plain_obj. cbn [forallb snd]. rewrite plain_obj. cbn [plain]. rewrite andb_true_r. reflexivity. Qed.
Lemma forallb_map_true {X Y} (f : X -> Y) (p : Y -> bool) l : (forall x, p (f x) = true) -> forallb p (map f l) = true.
Proof. intros H. apply forallb_forall. intros y Hy. apply in_map_iff in Hy. destruct Hy as (x & <- & _). apply H. Qed.
Lemma plain_matrix ls f : (forall g p, plain (f g p) = true) -> plain (matrix_doc ls f) = true.
Proof. intros H. unfold matrix_doc. rewrite plain_obj. apply forallb_map_true. intros g. cbn [snd]. rewrite plain_obj. apply forallb_map_true. intros p. apply H. Qed.
Lemma plain_row ls f : (forall g, plain (f g) = true) -> plain (row_doc ls f) = true.
Proof. intros H. unfold row_doc. rewrite plain_obj. apply forallb_map_true. intros g. apply H. Qed.
Lemma plain_cell {X} (ex : X -> doc) l : (forall x, plain (ex x) = true) -> plain (cell_doc ex l) = true.
Proof. intros H. unfold cell_doc. rewrite plain_obj. cbn [forallb snd]. rewrite plain_arr, forallb_map_true by exact H. reflexivity. Qed.
Lemma plain_strings l : plain (strings l) = true. Proof. unfold strings. rewrite plain_arr. apply forallb_map_true. reflexivity. Qed.
Lemma plain_scores l : plain (scores_doc l) = true. Proof. unfold scores_doc. rewrite plain_arr. apply forallb_map_true. reflexivity. Qed.
Lemma plain_floats l : plain (arr (map PyFloat l)) = true. Proof. rewrite plain_arr. apply forallb_map_true. reflexivity. Qed.

Lemma in_each {X Y Z} (xs : list X) (ys : list Y) (f : X -> Y -> Z) z : In z (each xs ys f) -> exists x y, f x y = z.
Proof. rewrite each_prod. intros H. apply in_map_iff in H. destruct H as (p & E & _). exists (fst p), (snd p). exact E. Qed.
Theorem cls_plain hm ls thrs acc c d : In d (all_docs (cls_documents hm ls thrs acc c)) -> plain d = true.
Proof.
  unfold all_docs, cls_documents. intros H. apply in_flat_map in H. destruct H as ([k ds] & Hk & Hd). cbn [snd] in Hd. destruct Hk as [Hk|Hk].
  - injection Hk as <- <-. apply in_map_iff in Hd. destruct Hd as (t & <- & _). reflexivity.
  - unfold if_any in Hk. destruct ls as [|l0 ls0] eqn:El; [destruct Hk|]. rewrite <- El in *. cbn [In] in Hk. destruct Hk as [H|[H|[H|[H|[]]]]]; injection H as <- <-; apply in_each in Hd; destruct Hd as (l & t & <-); reflexivity.
Qed.
Theorem cls_matrix_plain hm ls u pass cs t : plain (cls_matrix_document hm ls u pass cs t) = true.
Proof. unfold cls_matrix_document. rewrite plain_document, plain_obj. cbn [forallb snd]. rewrite plain_matrix, plain_row by reflexivity. reflexivity. Qed.
Theorem cls_example_plain hm cs pos t c : plain (example_doc hm cs pos t c) = true.
Proof. unfold example_doc. rewrite plain_document, plain_obj. cbn [forallb snd]. rewrite !plain_strings. reflexivity. Qed.
Theorem cls_matrix_examples_plain hm ls u pass cs t : plain (cls_matrix_examples_document hm ls u pass cs t) = true.
Proof.
  unfold cls_matrix_examples_document. rewrite plain_document, plain_obj. cbn [forallb snd]. rewrite plain_matrix, plain_row; [reflexivity| |].
  - intros g. apply plain_cell. reflexivity.
  - intros g p. apply plain_cell. intros c. destruct (score_of p c); reflexivity.
Qed.
Lemma mean_plain o ty ps : not_nan (document ty (mean_doc o) ps) -> plain (mean_doc o) = true.
Proof. unfold not_nan. destruct o; [reflexivity|]. intros H. destruct (H eq_refl). Qed.
Theorem roc_plain areas average d : In d (all_docs (roc_documents areas average)) -> not_nan d -> plain d = true.
Proof.
  unfold all_docs, roc_documents. intros H N. cbn in H. apply in_app_or in H. destruct H as [H|[H|[]]].
  - apply in_map_iff in H. destruct H as (la & <- & _). reflexivity.
  - subst d. rewrite plain_document, (mean_plain _ _ _ N). reflexivity.
Qed.
Theorem det_plain ls ious scores eps e datums d : In d (all_docs (det_documents ls ious scores eps e datums)) -> not_nan d -> plain d = true.
Proof.
  intros H N. unfold all_docs in H. apply in_flat_map in H. destruct H as ([k ds] & Hk & Hd). cbn [snd] in Hd.
  unfold det_documents in Hk. cbv zeta in Hk. apply in_app_or in Hk. destruct Hk as [H|H].
  - cbn [In] in H. destruct H as [H|[H|[H|[H|[H|[H|[H|[H|[H|[]]]]]]]]]]; injection H as <- <-; rewrite ?each_prod in Hd; [..| |];
    try (apply in_map_iff in Hd; destruct Hd as (x & <- & _)); try (destruct Hd as [<-|[]]);
    rewrite plain_document; try rewrite (mean_plain _ _ _ N); cbn [forallb snd]; rewrite ?plain_obj; cbn [forallb snd];
    rewrite ?plain_scores, ?plain_floats; reflexivity.
  - assert (X : forall (F : nat * string -> Z -> Z -> doc) ls, (forall l t s, plain (F l t s) = true) ->
      In d (flat_map (fun l => flat_map (fun s => map (fun t => F l t s) ious) scores) ls) -> plain d = true).
    { intros F ks P Q. rewrite triples_map in Q. apply in_map_iff in Q. destruct Q as (x & <- & _). apply P. }
    unfold if_any in H. destruct ls as [|l0 ls0] eqn:El; [destruct H|]. rewrite <- El in *. cbn [In] in H. destruct H as [H|[H|[H|[H|[]]]]]; injection H as <- <-; (eapply X; [|exact Hd]); reflexivity.
Qed.
Theorem det_matrix_plain names eps ds t s : plain (det_matrix_doc names eps ds t s) = true.
Proof. unfold det_matrix_doc. rewrite plain_document, plain_obj. cbn [forallb snd]. rewrite plain_matrix, !plain_row by reflexivity. reflexivity. Qed.
Theorem det_matrix_examples_plain names eps ds t s : plain (det_matrix_examples_doc names eps ds t s) = true.
Proof.
  unfold det_matrix_examples_doc. rewrite plain_document, plain_obj. cbn [forallb snd].
  assert (X : forall {X} (f : detection -> list X) (ex : detection -> X -> list (string * doc)), (forall d x, forallb (fun y => plain (snd y)) (ex d x) = true) ->
     plain (cell_doc (fun l => obj l) (flat_map (fun d => map (fun x => ("datum_id"%string, PyStr (t_uid d)) :: ex d x) (f d)) ds)) = true).
  { intros X f ex E. unfold cell_doc. rewrite plain_obj. cbn [forallb snd]. rewrite plain_arr. replace (forallb plain _) with true; [reflexivity|]. symmetry.
    apply forallb_forall. intros y Hy. apply in_map_iff in Hy. destruct Hy as (l & <- & Hl). apply in_flat_map in Hl. destruct Hl as (d & _ & Hl). apply in_map_iff in Hl.
    destruct Hl as (x & <- & _). rewrite plain_obj. cbn. apply E. }
  rewrite plain_matrix, !plain_row; [reflexivity| | |]; intros; apply X; reflexivity.
Qed.
Theorem det_example_plain eps d t s : plain (det_example_doc eps d t s) = match right_pairs eps t s d with [] => true | _ => false end.
Proof.
  unfold det_example_doc. rewrite plain_document, plain_obj. cbn [forallb snd]. rewrite !plain_strings. destruct (right_pairs eps t s d); reflexivity.
Qed.
Lemma field_agree a b k : agree a b -> match field a k, field b k with Some x, Some y => agree x y | None, None => True | _, _ => False end.
Proof.
  intros A. destruct A as [a|p q E|d d' F]; cbn.
  - destruct (field a k); [apply agree_refl|exact I].
  - exact I.
  - induction F as [|[k1 x] [k2 y] l l' [E A] F IH]; cbn; [exact I|]. cbn in E. subst k2. destruct (match k1 with Some k' => String.eqb k k' | None => false end); cbn; [exact A|exact IH].
Qed.
Theorem seg_plain ss v L d : In d (all_docs (seg_documents ss v L)) -> not_nan d -> plain d = true.
Proof.
  intros H N. unfold all_docs in H. apply in_flat_map in H. destruct H as ([k ds] & Hk & Hd). cbn [snd] in Hd.
  unfold seg_documents in Hk. cbv zeta in Hk. apply in_app_or in Hk. destruct Hk as [H|H].
  - cbn [In] in H. destruct H as [H|[H|[H|[]]]]; injection H as <- <-; destruct Hd as [<-|[]]; rewrite plain_document.
    + reflexivity.
    + rewrite plain_obj. cbn [forallb snd]. rewrite plain_matrix, !plain_row by reflexivity. reflexivity.
    + destruct L; [destruct (N eq_refl)|reflexivity].
  - unfold if_any in H. destruct L as [|l0 L0] eqn:El; [destruct H|]. rewrite <- El in *. cbn [In] in H. destruct H as [H|[H|[H|[H|[]]]]]; injection H as <- <-; apply in_map_iff in Hd; destruct Hd as (l & <- & _); reflexivity.
Qed.

(* ---------------------------------------------------------------- objects *)
Section Objects.
  Context {I : Type} (sh : I -> Prop).
  Definition vlocal (new : supply I) (v : pyval I) : Prop := forall i, In i (ids v) -> (exists p, i = new p) \/ sh i.
  Definition mlocal (new : supply I) (m : metric I) : Prop := vlocal new (me_value m) /\ vlocal new (me_parameters m).
  Definition local (mk : maker I) : Prop := forall new m, mk new = Some m -> mlocal new m.
  Lemma vlocal_atom new v : ids v = [] -> vlocal new v.
  Proof. intros E i H. rewrite E in H. destruct H. Qed.
  Lemma vlocal_below new s v : vlocal (below new s) v -> vlocal new v.
  Proof. intros H i Hi. destruct (H i Hi) as [(p & ->)|Hs]; [left; exists (s :: p); reflexivity|right; exact Hs]. Qed.
  Lemma vlocal_list new i l : (exists p, i = new p) \/ sh i -> Forall (vlocal new) l -> vlocal new (PyList i l).
  Proof. intros Hi H j [<-|Hj]; [exact Hi|]. apply in_flat_map in Hj. destruct Hj as (x & Hx & Hj). exact (proj1 (Forall_forall _ _) H x Hx j Hj). Qed.
  Lemma vlocal_tuple new l : Forall (vlocal new) l -> vlocal new (PyTuple l).
  Proof. intros H j Hj. cbn in Hj. apply in_flat_map in Hj. destruct Hj as (x & Hx & Hj). exact (proj1 (Forall_forall _ _) H x Hx j Hj). Qed.
  Lemma vlocal_dict new i d : (exists p, i = new p) \/ sh i -> Forall (fun kv => vlocal new (snd kv)) d -> vlocal new (PyDict i d).
  Proof. intros Hi H j [<-|Hj]; [exact Hi|]. apply in_flat_map in Hj. destruct Hj as (x & Hx & Hj). exact (proj1 (Forall_forall _ _) H x Hx j Hj). Qed.
  Lemma make_local new ty v p m : make ty v p = Some m -> vlocal new v -> vlocal new p -> mlocal new m.
  Proof. unfold make. destruct (value_type v && string_keys p); [|discriminate]. intros [= <-] H1 H2. split; assumption. Qed.
  Lemma params_local new d : Forall (fun kv => vlocal new (snd kv)) d -> vlocal new (params new d).
  Proof. intros H. apply vlocal_dict; [left; eexists; reflexivity|exact H]. Qed.
  Lemma vdict_local new d : Forall (fun kv => vlocal new (snd kv)) d -> vlocal new (vdict new d).
  Proof. intros H. apply vlocal_dict; [left; eexists; reflexivity|exact H]. Qed.
  Lemma atoms_local new i l : (exists p, i = new p) \/ sh i -> (forall v, In v l -> ids v = []) -> vlocal new (PyList i l).
  Proof. intros H E. apply vlocal_list; [exact H|]. apply Forall_forall. intros v Hv. apply vlocal_atom. exact (E v Hv). Qed.
  Lemma count_dict_local new d : vlocal new (count_dict new d).
  Proof.
    apply vlocal_dict; [left; eexists; reflexivity|]. apply Forall_forall. intros kv H. apply in_map_iff in H. destruct H as (x & <- & _). apply vlocal_atom. reflexivity.
  Qed.
  Lemma count_table_local new d : vlocal new (count_table new d).
  Proof.
    apply vlocal_dict; [left; eexists; reflexivity|]. apply Forall_forall. intros kv H. apply in_map_iff in H. destruct H as (x & <- & _). cbn. eapply vlocal_below. apply count_dict_local.
  Qed.
  Lemma rate_dict_local new k d : vlocal new (rate_dict new k d).
  Proof.
    apply vlocal_dict; [left; eexists; reflexivity|]. apply Forall_forall. intros kv H. apply in_map_iff in H. destruct H as (x & <- & _). cbn.
    apply vlocal_dict; [left; eexists; reflexivity|]. constructor; [apply vlocal_atom; reflexivity|constructor].
  Qed.
  Lemma all_some_In {X} (l : list (option X)) l' x : SegModel.all_some l = Some l' -> In x l' -> In (Some x) l.
  Proof.
    revert l'. induction l as [|[y|] l IH]; intros l' E H; cbn in E; [injection E as <-; destruct H| |discriminate].
    destruct (SegModel.all_some l) as [t|]; [|discriminate]. injection E as <-. destruct H as [<-|H]; [left; reflexivity|right; apply (IH t); auto].
  Qed.
  Lemma all_some_nth {X} (l : list (option X)) l' n x : SegModel.all_some l = Some l' -> nth_error l' n = Some x -> nth_error l n = Some (Some x).
  Proof.
    revert l' n. induction l as [|[y|] l IH]; intros l' n E H; cbn in E; [injection E as <-; destruct n; discriminate| |discriminate].
    destruct (SegModel.all_some l) as [t|]; [|discriminate]. injection E as <-. destruct n as [|n]; cbn in *; [congruence|apply (IH t); auto].
  Qed.
  Lemma imap_nth {X Y} (f : nat -> X -> Y) l n : nth_error (imap f l) n = option_map (f n) (nth_error l n).
  Proof. unfold imap. rewrite nth_error_map. rewrite nth_indexed. destruct (nth_error l n); reflexivity. Qed.
  Lemma cell_local {X} new (ex : supply I -> X -> option (pyval I)) c v :
    (forall new x v, ex new x = Some v -> vlocal new v) -> cell_dict new ex c = Some v -> vlocal new v.
  Proof.
    intros Hex. unfold cell_dict. destruct (SegModel.all_some _) as [l|] eqn:E; [|discriminate]. intros [= <-]. apply vlocal_dict; [left; eexists; reflexivity|].
    constructor; [apply vlocal_atom; reflexivity|constructor; [|constructor]]. cbn [snd]. apply vlocal_list; [left; eexists; reflexivity|]. apply Forall_forall. intros y Hy.
    apply (all_some_In _ _ _ E) in Hy. apply In_nth_error in Hy. destruct Hy as (n & Hn). rewrite imap_nth in Hn. destruct (nth_error (snd c) n) as [x|]; [|discriminate]. cbn in Hn.
    injection Hn as Hn. apply Hex in Hn. eapply vlocal_below. eapply vlocal_below. exact Hn.
  Qed.
  Lemma cells_local {X} new (ex : supply I -> X -> option (pyval I)) d v :
    (forall new x v, ex new x = Some v -> vlocal new v) -> cells_dict new ex d = Some v -> vlocal new v.
  Proof.
    intros Hex. unfold cells_dict. destruct (SegModel.all_some _) as [l|] eqn:E; [|discriminate]. intros [= <-]. apply vlocal_dict; [left; eexists; reflexivity|].
    apply Forall_forall. intros y Hy. apply (all_some_In _ _ _ E) in Hy. apply in_map_iff in Hy. destruct Hy as (x & Ex & _).
    destruct (cell_dict _ ex (snd x)) as [w|] eqn:Ew; [|discriminate]. cbn in Ex. injection Ex as <-. cbn. apply (cell_local _ _ _ _ Hex) in Ew. eapply vlocal_below. exact Ew.
  Qed.
  Lemma table_local {X} new (ex : supply I -> X -> option (pyval I)) d v :
    (forall new x v, ex new x = Some v -> vlocal new v) -> cells_table new ex d = Some v -> vlocal new v.
  Proof.
    intros Hex. unfold cells_table. destruct (SegModel.all_some _) as [l|] eqn:E; [|discriminate]. intros [= <-]. apply vlocal_dict; [left; eexists; reflexivity|].
    apply Forall_forall. intros y Hy. apply (all_some_In _ _ _ E) in Hy. apply in_map_iff in Hy. destruct Hy as (x & Ex & _).
    destruct (cells_dict _ ex (snd x)) as [w|] eqn:Ew; [|discriminate]. cbn in Ex. injection Ex as <-. cbn. apply (cells_local _ _ _ _ Hex) in Ew. eapply vlocal_below. exact Ew.
  Qed.
  Lemma record_local new d v : Some (PyDict (new []) d) = Some v -> (forall kv, In kv d -> ids (snd kv) = []) -> vlocal new v.
  Proof. intros [= <-] H. apply vlocal_dict; [left; eexists; reflexivity|]. apply Forall_forall. intros kv Hk. apply vlocal_atom. exact (H kv Hk). Qed.
  Lemma olist_local new l v : olist new l = Some v -> vlocal new v.
  Proof.
    unfold olist. destruct (SegModel.all_some l); [|discriminate]. intros [= <-]. apply atoms_local; [left; eexists; reflexivity|].
    intros x Hx. apply in_map_iff in Hx. destruct Hx as (y & <- & _). reflexivity.
  Qed.
  Lemma uid_value_ids (u : option (option string)) v : uid_value (I := I) u = Some v -> ids v = [].
  Proof. destruct u as [[s|]|]; intros [= <-]; reflexivity. Qed.
  Lemma uid_list_local new l v : uid_list new l = Some v -> vlocal new v.
  Proof.
    unfold uid_list. destruct (SegModel.all_some _) as [t|] eqn:E; [|discriminate]. intros [= <-]. apply atoms_local; [left; eexists; reflexivity|].
    intros x Hx. apply (all_some_In _ _ _ E) in Hx. apply in_map_iff in Hx. destruct Hx as (y & Hy & _). exact (uid_value_ids _ _ Hy).
  Qed.
  Lemma pair_list_local new l v : pair_list new l = Some v -> vlocal new v.
  Proof.
    unfold pair_list. destruct (SegModel.all_some _) as [t|] eqn:E; [|discriminate]. intros [= <-]. apply atoms_local; [left; eexists; reflexivity|].
    intros x Hx. apply (all_some_In _ _ _ E) in Hx. apply in_map_iff in Hx. destruct Hx as (y & Hy & _). unfold uid_pair in Hy.
    destruct (uid_value (fst y)) as [a|] eqn:Ea; [|discriminate]. destruct (uid_value (snd y)) as [b|] eqn:Eb; [|discriminate]. injection Hy as <-. cbn.
    rewrite (uid_value_ids _ _ Ea), (uid_value_ids _ _ Eb). reflexivity.
  Qed.
  (* a report is local when its makers are *)
  Lemma listing_local new ty ms l n m : listing new ty ms = Some l -> Forall local ms -> nth_error l n = Some m ->
    mlocal (below (below new (Key (Some ty))) (At n)) m.
  Proof.
    unfold listing. intros E F Hn. apply (all_some_nth _ _ _ _ E) in Hn. rewrite imap_nth in Hn. destruct (nth_error ms n) as [mk|] eqn:Em; [|discriminate]. cbn in Hn.
    injection Hn as Hn. apply (proj1 (Forall_forall _ _) F mk (nth_error_In _ _ Em)). exact Hn.
  Qed.
  Lemma realise_local new d r k ms : realise new d = Some r -> Forall (fun kv => Forall local (snd kv)) d -> In (k, ms) r ->
    forall n m, nth_error ms n = Some m -> mlocal (below (below new (Key (Some k))) (At n)) m.
  Proof.
    unfold realise. intros E F H. apply (all_some_In _ _ _ E) in H. apply in_map_iff in H. destruct H as ([k' mk] & Hx & Hin). cbn [fst snd] in Hx.
    destruct (listing new k' mk) as [l|] eqn:El; [|discriminate]. cbn in Hx. injection Hx as -> ->.
    intros n m Hn. eapply listing_local; [exact El| |exact Hn]. exact (proj1 (Forall_forall _ _) F (k, mk) Hin).
  Qed.
  Lemma realise_keys new (d : list (string * list (maker I))) r : realise new d = Some r -> map fst r = map fst d.
  Proof.
    unfold realise. revert r. induction d as [|[k mk] d IH]; intros r E; cbn [map fst snd SegModel.all_some] in E; [injection E as <-; reflexivity|].
    destruct (listing new k mk); [|discriminate]. cbn in E. destruct (SegModel.all_some _) as [t|]; [|discriminate]. injection E as <-. cbn. rewrite (IH t eq_refl). reflexivity.
  Qed.
  Lemma appended_Forall (P : string * list (maker I) -> Prop) d : Forall P d -> Forall P (appended d).
  Proof. intros H. apply Forall_forall. intros x Hx. apply filter_In in Hx. exact (proj1 (Forall_forall _ _) H x (proj1 Hx)). Qed.
  Lemma appended_nodup (d : list (string * list (maker I))) : NoDup (map fst d) -> NoDup (map fst (appended d)).
  Proof.
    unfold appended. induction d as [|[k mk] d IH]; intros N; [constructor|]. cbn in N. inversion N as [|? ? N1 N2]; subst. cbn. destruct (negb _); cbn; [|auto].
    constructor; [|auto]. intros H. apply N1. apply in_map_iff in H. destruct H as (x & E & H). apply filter_In in H. apply in_map_iff. exists x. tauto.
  Qed.
End Objects.

(* the metrics of each kind only contain objects made at their own place *)
Ltac atoms := repeat match goal with |- Forall _ [] => constructor | |- Forall _ (_ :: _) => constructor end.
Ltac blocal := cbn [snd] in *;
  first [ apply vlocal_atom; solve [reflexivity | match goal with |- ids (plabel ?l) = [] => destruct l; reflexivity | |- ids (or_nan ?o) = [] => destruct o; reflexivity | |- ids (match ?l with Some _ => _ | None => _ end) = [] => destruct l; reflexivity end]
        | assumption ].
Section Makers.
  Context {I : Type} (sh : I -> Prop).
  Notation vl := (vlocal sh).
  Ltac mk E := eapply make_local; [exact E| try solve [blocal] | first [apply params_local | idtac]; atoms; try solve [blocal]].
  Lemma labelled_local new ty q t hm l m : cls_labelled new ty (PyFloat q) t hm l = Some m -> mlocal sh new m.
  Proof. unfold cls_labelled. intros E. mk E. Qed.
  Lemma accuracy_local new q t hm m : cls_accuracy new (PyFloat q) t hm = Some m -> mlocal sh new m.
  Proof. unfold cls_accuracy. intros E. mk E. Qed.
  Lemma count_local new c t hm l m : cls_count new c t hm l = Some m -> mlocal sh new m.
  Proof. unfold cls_count. intros E. mk E. apply vdict_local. atoms; blocal. Qed.
  Lemma det_labelled_local new ty q l t s m : det_labelled new ty (PyFloat q) l t s = Some m -> mlocal sh new m.
  Proof. unfold det_labelled. intros E. mk E. Qed.
  Lemma det_count_local new a b c l t s m : det_count new a b c l t s = Some m -> mlocal sh new m.
  Proof. unfold det_count. intros E. mk E. apply vdict_local. atoms; blocal. Qed.
  Lemma det_curve_local new a b t l m : det_curve new a b t l = Some m -> mlocal sh new m.
  Proof.
    unfold det_curve. intros E. mk E. apply vdict_local. atoms; cbn [snd]; (apply atoms_local; [left; eexists; reflexivity|]); intros v Hv; apply in_map_iff in Hv; destruct Hv as (x & <- & _); reflexivity.
  Qed.
End Makers.
Lemma Forall_map_in {X Y} (f : X -> Y) (P : Y -> Prop) l : (forall x, P (f x)) -> Forall P (map f l).
Proof. intros H. apply Forall_forall. intros y Hy. apply in_map_iff in Hy. destruct Hy as (x & <- & _). apply H. Qed.
Lemma Forall_flat_map_in {X Y} (f : X -> list Y) (P : Y -> Prop) l : (forall x, Forall P (f x)) -> Forall P (flat_map f l).
Proof. intros H. apply Forall_forall. intros y Hy. apply in_flat_map in Hy. destruct Hy as (x & _ & Hy). exact (proj1 (Forall_forall _ _) (H x) y Hy). Qed.

Definition placed (c : nat) (own : oid -> Prop) (r : report oid) : Prop :=
  NoDup (map fst r) /\ forall k ms n m, In (k, ms) r -> nth_error ms n = Some m -> mlocal own (below (below (Made c) (Key (Some k))) (At n)) m.
Lemma placed_listing c own ty ms l : listing (Made c) ty ms = Some l -> Forall (local own) ms -> placed c own [(ty, l)].
Proof.
  intros E F. split; [constructor; [intros []|constructor]|]. intros k ms' n m [[= <- <-]|[]] Hn. eapply listing_local; [exact E|exact F|exact Hn].
Qed.
Lemma placed_realise c own d r : realise (Made c) d = Some r -> Forall (fun kv => Forall (local own) (snd kv)) d -> NoDup (map fst d) -> placed c own r.
Proof.
  intros E F N. split; [rewrite (realise_keys _ _ _ E); exact N|]. intros k ms n m Hk Hn. eapply realise_local; [exact E|exact F|exact Hk|exact Hn].
Qed.
Ltac keys := repeat (constructor; [cbn; intuition discriminate|]); constructor.
Ltac mk E := eapply make_local; [exact E| try solve [blocal] | apply params_local; atoms; try solve [blocal]].
Lemma app_keys (d1 d2 : list (string * list (maker oid))) : NoDup (map fst (d1 ++ d2)) -> NoDup (map fst (d1 ++ appended d2)).
Proof.
  induction d1 as [|[k mk] d1 IH]; cbn; [apply appended_nodup|]. intros N. inversion N as [|? ? N1 N2]; subst. constructor; [|auto]. intros H. apply N1.
  rewrite map_app, in_app_iff in *. destruct H as [H|H]; [left; exact H|right]. apply in_map_iff in H. destruct H as (x & E & H). apply filter_In in H. apply in_map_iff. exists x. tauto.
Qed.
Theorem returned_placed c own r : returned c own r -> placed c own r.
Proof.
  intros R. destruct R as [tol hm thrs datums e r E|e r E|tol9 hm thrs datums e l E|tol9 hm thrs datums limit offset e l E|tol9 hm thrs datums e l E
    |eps e datums i s ious scores r E|eps ious scores datums e l E|eps ious scores datums limit offset e l E|eps ious scores datums e l E|ed e r E].
  - unfold cls_precision_recall in E. destruct (report_metrics _ _ _ _ _) as [m|]; [|discriminate]. eapply placed_realise; [exact E| |].
    + constructor; [apply Forall_map_in; intros x new m' H; eapply accuracy_local; exact H|]. apply appended_Forall. atoms; cbn [snd]; apply Forall_map_in; intros x new m' H;
        (destruct (snd x); [|discriminate]); first [eapply count_local; exact H|eapply labelled_local; exact H].
    + apply (app_keys [(_, _)] [_; _; _; _]). cbn. keys.
  - eapply placed_realise; [exact E| |cbn; keys]. atoms; cbn [snd]; [apply Forall_map_in|atoms]; intros *.
    + intros new m H. destruct (snd x); [|discriminate]. unfold cls_roc_auc in H. mk H.
    + intros new m H. unfold cls_mean_roc_auc in H. mk H.
  - unfold cls_confusion_report in E. destruct (report_confusion _ _ _ _ _) as [x|]; [|discriminate]. eapply placed_listing; [exact E|]. apply Forall_map_in. intros y new m H.
    unfold cls_matrix in H. mk H. apply vdict_local. atoms; cbn [snd]; do 2 eapply vlocal_below; [apply count_table_local|apply count_dict_local].
  - unfold cls_examples_report in E. destruct (cls_examples _ _ _ _ _ _ _) as [x|]; [|discriminate]. eapply placed_listing; [exact E|]. apply Forall_map_in. intros y new m H.
    destruct (nx_uid y); [|discriminate]. destruct (olist _ (nx_tp y)) eqn:E1; [|discriminate]. destruct (olist _ (nx_fp y)) eqn:E2; [|discriminate]. destruct (olist _ (nx_fn y)) eqn:E3; [|discriminate].
    unfold cls_example in H. mk H. apply vdict_local. atoms; cbn [snd]; [blocal| | |]; do 2 eapply vlocal_below; eapply olist_local; eassumption.
  - unfold cls_confusion_examples_report in E. destruct (cls_confusion_examples _ _ _ _ _) as [x|]; [|discriminate]. eapply placed_listing; [exact E|]. apply Forall_map_in. intros y new m H.
    destruct (snd y); [|discriminate]. destruct (cells_table _ _ _) eqn:E1; [|discriminate]. destruct (cells_dict _ _ _) eqn:E2; [|discriminate].
    unfold cls_matrix_examples in H. mk H. apply vdict_local. atoms; cbn [snd]; do 2 eapply vlocal_below; [eapply table_local; [|exact E1]|eapply cells_local; [|exact E2]].
    + intros n [[u|] [s|]] v Hv; try discriminate. eapply record_local; [exact Hv|]. intros kv [<-|[<-|[]]]; reflexivity.
    + intros n [u|] v Hv; try discriminate. eapply record_local; [exact Hv|]. intros kv [<-|[]]; reflexivity.
  - unfold det_precision_recall in E. cbv zeta in E. destruct ious as [|i0 ious0] eqn:Ei; [discriminate|]. destruct scores as [|s0 scores0] eqn:Es; [discriminate|]. rewrite <- Ei, <- Es in *.
    assert (Hi : forall new, vlocal (fun x => x = Mine i \/ x = Mine s) new (PyList (Mine i) (map PyScore ious))).
    { intros new. apply atoms_local; [right; left; reflexivity|]. intros v Hv. apply in_map_iff in Hv. destruct Hv as (x & <- & _). reflexivity. }
    assert (Hs : forall new, vlocal (fun x => x = Mine i \/ x = Mine s) new (PyList (Mine s) (map PyScore scores))).
    { intros new. apply atoms_local; [right; right; reflexivity|]. intros v Hv. apply in_map_iff in Hv. destruct Hv as (x & <- & _). reflexivity. }
    eapply placed_realise; [exact E| |].
    + apply Forall_app. split; [|apply appended_Forall].
      * atoms; cbn [snd]; atoms; try (apply Forall_flat_map_in; intros x); try apply Forall_map_in; intros *;
          intros new m H; try (destruct (indexed _ _ _); [|discriminate]); try (eapply det_curve_local; exact H);
          try (unfold det_ap, det_map, det_ap_avg, det_map_avg, det_ar, det_mar, det_ar_avg, det_mar_avg in H; mk H; auto).
      * atoms; cbn [snd]; unfold det_labelled_makers; do 2 (apply Forall_flat_map_in; intros ?); apply Forall_map_in; intros t new m H; (destruct (indexed _ _ _); [|discriminate]);
          first [eapply det_count_local; exact H|eapply det_labelled_local; exact H].
    + apply app_keys. cbn. keys.
  - unfold det_confusion_report in E. destruct (det_confusion_metrics _ _ _ _ _) as [x|]; [|discriminate]. eapply placed_listing; [exact E|]. apply Forall_map_in. intros y new m H.
    unfold det_matrix in H. mk H. apply vdict_local. atoms; cbn [snd]; do 2 eapply vlocal_below; [apply count_table_local|apply count_dict_local|apply count_dict_local].
  - unfold det_examples_report in E. destruct (det_examples _ _ _ _ _ _ _) as [x|]; [|discriminate]. eapply placed_listing; [exact E|]. apply Forall_map_in. intros [[[u t] s] ex] new m H.
    destruct u; [|discriminate]. destruct (pair_list _ _) eqn:E1; [|discriminate]. destruct (uid_list _ (dx_fp ex)) eqn:E2; [|discriminate]. destruct (uid_list _ (dx_fn ex)) eqn:E3; [|discriminate].
    unfold det_exmetric in H. mk H. apply vdict_local. atoms; cbn [snd]; [blocal| | |]; do 2 eapply vlocal_below; [eapply pair_list_local|eapply uid_list_local|eapply uid_list_local]; eassumption.
  - unfold det_confusion_examples_report in E. destruct (det_confusion_examples _ _ _ _ _) as [x|]; [|discriminate]. eapply placed_listing; [exact E|]. apply Forall_map_in. intros y new m H.
    destruct (snd y) as [M|]; [|discriminate]. destruct (cells_table _ _ _) eqn:E1; [|discriminate]. destruct (cells_dict _ _ (dx_pds M)) eqn:E2; [|discriminate]. destruct (cells_dict _ _ (dx_gts M)) eqn:E3; [|discriminate].
    unfold det_matrix in H. mk H. apply vdict_local. atoms; cbn [snd]; do 2 eapply vlocal_below; [eapply table_local; [|exact E1]|eapply cells_local; [|exact E2]|eapply cells_local; [|exact E3]];
      intros n a v Hv; (eapply record_local; [exact Hv|]); intros kv Hk; cbn [In] in Hk; intuition (subst; cbn; try reflexivity);
      repeat match goal with |- ids (key_value ?o) = [] => destruct o; reflexivity end.
  - unfold seg_metrics in E. destruct (SegModel.seg_compute _ _) as [x|]; [|discriminate]. eapply placed_realise; [exact E| |].
    + apply Forall_app. split; [|apply appended_Forall].
      * atoms; cbn [snd]; atoms; intros new m H.
        -- unfold seg_overall in H. mk H.
        -- unfold seg_matrix_metric in H. mk H. apply vdict_local. atoms; cbn [snd]; do 2 eapply vlocal_below; [|apply rate_dict_local|apply rate_dict_local].
           apply vlocal_dict; [left; eexists; reflexivity|]. apply Forall_map_in. intros y. cbn. eapply vlocal_below. apply rate_dict_local.
        -- unfold seg_overall in H. mk H.
      * atoms; cbn [snd]; apply Forall_map_in; intros y new m H; unfold seg_labelled in H; mk H.
    + apply app_keys. cbn. keys.
Qed.

(* ---------------------------------------------------------------- sharing and changes *)
Lemma placed_at c own r k n m i : placed c own r -> metric_at r k n m -> In i (mids m) -> (exists p, i = Made c (Key (Some k) :: At n :: p)) \/ own i.
Proof.
  intros [_ P] (ms & Hk & Hn) Hi. destruct (P k ms n m Hk Hn) as [L1 L2]. unfold mids in Hi. apply in_app_or in Hi. destruct Hi as [Hi|Hi]; [apply L1 in Hi|apply L2 in Hi];
    (destruct Hi as [(p & ->)|Ho]; [left; exists p; reflexivity|right; exact Ho]).
Qed.
Theorem sharing c own r k n m k' n' m' i : returned c own r -> metric_at r k n m -> metric_at r k' n' m' -> (k, n) <> (k', n') ->
  In i (mids m) -> In i (mids m') -> own i.
Proof.
  intros R A A' D Hi Hi'. apply returned_placed in R. destruct (placed_at _ _ _ _ _ _ _ R A Hi) as [(p & ->)|H]; [|exact H].
  destruct (placed_at _ _ _ _ _ _ _ R A' Hi') as [(p' & E)|H]; [|exact H]. injection E as -> -> _. destruct D. reflexivity.
Qed.
Theorem sharing_calls c own r c' own' r' k n m k' n' m' i : returned c own r -> returned c' own' r' -> c <> c' -> metric_at r k n m -> metric_at r' k' n' m' ->
  In i (mids m) -> In i (mids m') -> own i \/ own' i.
Proof.
  intros R R' D A A' Hi Hi'. apply returned_placed in R, R'. destruct (placed_at _ _ _ _ _ _ _ R A Hi) as [(p & ->)|H]; [|left; exact H].
  destruct (placed_at _ _ _ _ _ _ _ R' A' Hi') as [(p' & E)|H]; [|right; exact H]. injection E as -> _. destruct D. reflexivity.
Qed.
Lemma edit_absent i c v : ~ In i (ids v) -> edit i c v = v.
Proof.
  induction v using value_ind; cbn; intros N; try reflexivity.
  - f_equal. rewrite <- (map_id l) at 2. apply map_ext_in. intros x Hx. apply (proj1 (Forall_forall _ _) H x Hx). intros Hi. apply N. apply in_flat_map. eauto.
  - destruct (oid_dec i i0) as [->|]; [destruct N; left; reflexivity|]. f_equal. rewrite <- (map_id l) at 2. apply map_ext_in. intros x Hx.
    apply (proj1 (Forall_forall _ _) H x Hx). intros Hi. apply N. right. apply in_flat_map. eauto.
  - destruct (oid_dec i i0) as [->|]; [destruct N; left; reflexivity|]. f_equal. rewrite <- (map_id d) at 2. apply map_ext_in. intros [k x] Hx. cbn. f_equal.
    apply (proj1 (Forall_forall _ _) H (k, x) Hx). intros Hi. apply N. right. apply in_flat_map. exists (k, x). auto.
Qed.
Lemma edit_metric_absent i c m : ~ In i (mids m) -> edit_metric i c m = m.
Proof.
  intros N. unfold edit_metric, mids in *. rewrite !edit_absent; [destruct m; reflexivity| |]; intros H; apply N; apply in_or_app; auto.
Qed.
Lemma edits_absent l v : (forall ic, In ic l -> ~ In (fst ic) (ids v)) -> edits l v = v.
Proof.
  unfold edits. induction l as [|ic l IH]; intros N; [reflexivity|]. cbn. rewrite edit_absent by (apply N; left; reflexivity). apply IH. intros x Hx. apply N. right. exact Hx.
Qed.
Lemma edits_metric_absent l m : (forall ic, In ic l -> ~ In (fst ic) (mids m)) -> edits_metric l m = m.
Proof.
  unfold edits_metric. induction l as [|ic l IH]; intros N; [reflexivity|]. cbn. rewrite edit_metric_absent by (apply N; left; reflexivity). apply IH. intros x Hx. apply N. right. exact Hx.
Qed.
Lemma copy_ids {I J} (v : pyval I) : forall (new : supply J) i, In i (ids (copy new v)) -> exists p, i = new p.
Proof.
  induction v using value_ind; intros new j Hj; cbn in Hj; try contradiction.
  - revert Hj. generalize 0. induction l as [|x l IH]; intros n Hj; [destruct Hj|]. inversion H as [|? ? H1 H2]; subst. cbn in Hj. apply in_app_or in Hj. destruct Hj as [Hj|Hj].
    + apply H1 in Hj. destruct Hj as (p & ->). exists (At n :: p). reflexivity.
    + exact (IH H2 (S n) Hj).
  - destruct Hj as [<-|Hj]; [exists []; reflexivity|]. revert Hj. generalize 0. induction l as [|x l IH]; intros n Hj; [destruct Hj|]. inversion H as [|? ? H1 H2]; subst.
    cbn in Hj. apply in_app_or in Hj. destruct Hj as [Hj|Hj].
    + apply H1 in Hj. destruct Hj as (p & ->). exists (At n :: p). reflexivity.
    + exact (IH H2 (S n) Hj).
  - destruct Hj as [<-|Hj]; [exists []; reflexivity|]. revert Hj. induction d as [|[k x] d IH]; intros Hj; [destruct Hj|]. inversion H as [|? ? H1 H2]; subst.
    cbn in Hj. apply in_app_or in Hj. destruct Hj as [Hj|Hj].
    + apply H1 in Hj. destruct Hj as (p & ->). exists (Key k :: p). reflexivity.
    + exact (IH H2 Hj).
Qed.
Lemma to_dict_ids {I J} (new : supply J) (m : metric I) i : In i (ids (to_dict new m)) -> exists p, i = new p.
Proof.
  unfold to_dict. cbn. intros [<-|H]; [exists []; reflexivity|]. rewrite app_nil_r in H. apply in_app_or in H. destruct H as [H|H]; apply copy_ids in H; destruct H as (p & ->); eexists; reflexivity.
Qed.
Lemma copy_copy {I J K} (v : pyval I) : forall (new : supply J) (new' : supply K), copy new' (copy new v) = copy new' v.
Proof.
  induction v using value_ind; intros new new'; cbn; try reflexivity; f_equal.
  - generalize 0. induction l as [|x l IH]; intros n; [reflexivity|]. inversion H as [|? ? H1 H2]; subst. cbn. f_equal; [apply H1|apply IH; exact H2].
  - generalize 0. induction l as [|x l IH]; intros n; [reflexivity|]. inversion H as [|? ? H1 H2]; subst. cbn. f_equal; [apply H1|apply IH; exact H2].
  - induction d as [|[k x] d IH]; [reflexivity|]. inversion H as [|? ? H1 H2]; subst. cbn. f_equal; [f_equal; apply H1|apply IH; exact H2].
Qed.
(* the result of to_dict is made of objects of that call alone, and has the contents of the metric *)
Theorem snapshot c (m : metric oid) l : (forall ic p, In ic l -> fst ic <> Made c p) ->
  edits l (to_dict (Made c) m) = to_dict (Made c) m /\ copy (fun _ => tt) (to_dict (Made c) m) = contents m.
Proof.
  intros N. split.
  - apply edits_absent. intros ic Hic H. apply to_dict_ids in H. destruct H as (p & E). exact (N ic p Hic E).
  - unfold contents, to_dict. cbn. rewrite !copy_copy. reflexivity.
Qed.
Theorem snapshot_back c (m : metric oid) l : (forall i, In i (mids m) -> forall p, i <> Made c p) ->
  (forall ic, In ic l -> In (fst ic) (ids (to_dict (Made c) m))) -> edits_metric l m = m.
Proof.
  intros N H. apply edits_metric_absent. intros ic Hic Hi. apply H in Hic. apply to_dict_ids in Hic. destruct Hic as (p & E). exact (N _ Hi p E).
Qed.

(* ---------------------------------------------------------------- segmentation reports *)
Lemma agree_str x s : agree x (PyStr s) -> x = PyStr s.
Proof. intros A. inversion A; reflexivity. Qed.
Lemma agree_label x l : agree x (obj [("label"%string, PyStr l)]) -> x = obj [("label"%string, PyStr l)].
Proof.
  intros A. inversion A as [|? ? ?|d d' F E1 E2]; [reflexivity|]. subst d'. cbn in F. inversion F as [|[k y] [k' y'] t t' [E A'] F']; subst. inversion F'; subst. cbn in *. apply agree_str in A'. subst. reflexivity.
Qed.
Lemma agree_filed r r' : agree_reports r r' -> filed r' -> filed r.
Proof.
  intros A F k ds d Hk Hd. unfold agree_reports in A. induction A as [|[a x] [b y] l l' [E1 E2] A IH]; [destruct Hk|]. destruct Hk as [Hk|Hk].
  - injection Hk as -> ->. cbn in E1, E2. subst b. assert (G : forall d', In d' y -> field d' "type" = Some (PyStr k)) by (intros d' H; exact (F k y d' (or_introl eq_refl) H)).
    clear - E2 Hd G. induction E2 as [|p q s s' A B IH]; [destruct Hd|]. destruct Hd as [->|Hd]; [|apply IH; [exact Hd|intros; apply G; right; assumption]].
    assert (X := field_agree d q "type" A). rewrite (G q (or_introl eq_refl)) in X. destruct (field d "type"); [|destruct X]. apply agree_str in X. congruence.
  - apply IH; [intros k' ds' d' H H'; exact (F k' ds' d' (or_intror H) H')|exact Hk].
Qed.
Lemma agree_keys r r' : agree_reports r r' -> map fst r = map fst r'.
Proof. intros A. induction A as [|x y l l' [E _] A IH]; [reflexivity|]. cbn. congruence. Qed.
Lemma agree_labelled ty (V : string -> doc) L ds : NoDup L -> Forall2 agree ds (map (fun l => document ty (V l) [("label"%string, PyStr l)]) L) -> identified ds.
Proof.
  intros N A d d' Hd Hd' _ E.
  assert (X : forall n x, nth_error ds n = Some x -> exists l, nth_error L n = Some l /\ field x "parameters" = Some (obj [("label"%string, PyStr l)])).
  { clear - A. revert ds A. induction L as [|l L IH]; intros ds A n x Hn; inversion A as [|a b s s' A1 A2]; subst; [destruct n; discriminate|].
    destruct n as [|n]; cbn in Hn; [|exact (IH _ A2 n x Hn)]. injection Hn as ->. exists l. split; [reflexivity|]. assert (Y := field_agree _ _ "parameters" A1). rewrite field_params in Y.
    destruct (field x "parameters"); [|destruct Y]. f_equal. apply agree_label. exact Y. }
  apply In_nth_error in Hd, Hd'. destruct Hd as (n & Hd), Hd' as (n' & Hd'). destruct (X n d Hd) as (l & Hl & E1), (X n' d' Hd') as (l' & Hl' & E2).
  rewrite E1, E2 in E. injection E as <-. assert (n = n') as <- by (apply (proj1 (NoDup_nth_error L) N); [apply nth_error_Some|]; congruence). congruence.
Qed.
Lemma single_identified (d : doc) ds : Forall2 agree ds [d] -> identified ds.
Proof. intros A. inversion A as [|x y s s' A1 A2]; subst. inversion A2; subst. intros a b [<-|[]] [<-|[]] _ _. reflexivity. Qed.
Theorem seg_told_apart ss v L r : NoDup L -> agree_reports r (seg_documents ss v L) -> filed r /\ identified (all_docs r).
Proof.
  intros N A. assert (F' : filed (seg_documents ss v L)).
  { apply filed_iff. unfold seg_documents. cbv zeta. apply Forall_app. split.
    - repeat apply Forall_cons; try apply Forall_nil; reflexivity.
    - unfold if_any. destruct L as [|l0 L0] eqn:El; [constructor|]. rewrite <- El. repeat apply Forall_cons; try apply Forall_nil; cbn [fst snd];
        apply Forall_forall; intros d Hd; apply in_map_iff in Hd; destruct Hd as (x & <- & _); apply field_type. }
  assert (F := agree_filed _ _ A F'). split; [exact F|]. apply identified_all; [exact F| |].
  - rewrite (agree_keys _ _ A). unfold seg_documents. destruct L; cbn; keys.
  - intros k ds Hk. assert (Y : exists ds', In (k, ds') (seg_documents ss v L) /\ Forall2 agree ds ds').
    { clear - A Hk. induction A as [|[a x] [b y] l l' [E1 E2] A IH]; [destruct Hk|]. cbn in E1, E2. subst b. destruct Hk as [Hk|Hk].
      - injection Hk as -> ->. exists y. split; [left; reflexivity|exact E2].
      - destruct (IH Hk) as (ds' & H1 & H2). exists ds'. split; [right; exact H1|exact H2]. }
    destruct Y as (ds' & H & A'). unfold seg_documents in H. cbv zeta in H. apply in_app_or in H. destruct H as [H|H].
    + cbn [In] in H. destruct H as [H|[H|[H|[]]]]; injection H as <- <-; eapply single_identified; exact A'.
    + unfold if_any in H. destruct L as [|l0 L0] eqn:El; [destruct H|]. rewrite <- El in *. cbn [In] in H.
      destruct H as [H|[H|[H|[H|[]]]]]; injection H as <- <-.
      * exact (agree_labelled "Precision" (fun l => PyFloat (SegSpec.spec_precision ss v l)) L ds N A').
      * exact (agree_labelled "Recall" (fun l => PyFloat (SegSpec.spec_recall ss v l)) L ds N A').
      * exact (agree_labelled "F1" (fun l => PyFloat (SegSpec.spec_f1 ss v l)) L ds N A').
      * exact (agree_labelled "IOU" (fun l => PyFloat (SegSpec.spec_iou ss v l l)) L ds N A').
Qed.
Theorem seg_json ss v L r d : agree_reports r (seg_documents ss v L) -> In d (all_docs r) -> not_nan d -> plain d = true.
Proof.
  intros A Hd N. unfold all_docs in Hd. apply in_flat_map in Hd. destruct Hd as ([k ds] & Hk & Hd). cbn [snd] in Hd.
  assert (Y : exists d', In d' (all_docs (seg_documents ss v L)) /\ agree d d').
  { clear - A Hk Hd. unfold all_docs. induction A as [|[a x] [b y] l l' [E1 E2] A IH]; [destruct Hk|]. cbn in E1, E2. subst b. destruct Hk as [Hk|Hk].
    - injection Hk as -> ->. clear - E2 Hd. cbn. assert (Z : exists d', In d' y /\ agree d d').
      { induction E2 as [|p q s s' A B IH]; [destruct Hd|]. destruct Hd as [->|Hd]; [exists q; split; [left; reflexivity|exact A]|]. destruct (IH Hd) as (d' & H1 & H2). exists d'. split; [right|]; assumption. }
      destruct Z as (d' & H1 & H2). exists d'. split; [apply in_or_app; left|]; assumption.
    - destruct (IH Hk) as (d' & H1 & H2). exists d'. split; [cbn; apply in_or_app; right|]; assumption. }
  destruct Y as (d' & Hd' & A'). rewrite (plain_agree _ _ A'). apply (seg_plain ss v L d' Hd'). unfold not_nan in *. assert (X := field_agree d d' "value" A'). intros E. rewrite E in X.
  destruct (field d "value"); [|destruct X]. inversion X; subst. apply N. reflexivity.
Qed.
