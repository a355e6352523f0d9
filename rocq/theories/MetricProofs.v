(* The documents of metrics and reports. *)
From Verif Require Import Prelude PageSpec Counting CacheModel ClsModel ClsSpec ClsMore RocModel FlowModel ClsLabelProofs ClsFilterModel ClsFilterSpec ClsFilterCounts ClsFilterMain ClsReportModel ClsReportSpec ClsReportProofs ClsPageModel ClsPageSpec ClsPageProofs ClsCellModel ClsCellSpec ClsCellProofs
  DetModel DetExModel DetSpec DetFlowModel DetReportModel DetScoreModel DetEnd DetFilterSpec DetFilterMain DetTurnSpec DetCellModel DetCellSpec DetCellProofs MetricModel MetricSpec.
From Verif Require SegModel SegSpec.
From Coq Require Import String QArith Lia.
Local Notation length := List.length (only parsing).
Local Open Scope nat_scope.
Local Open Scope list_scope.

(* ---------------------------------------------------------------- lists *)
Lemma all_some_Forall2 {A B} (R : A -> B -> Prop) (l : list (option A)) (m : list B) :
  Forall2 (fun o y => exists x, o = Some x /\ R x y) l m -> exists k, SegModel.all_some l = Some k /\ Forall2 R k m.
Proof.
  induction 1 as [|o y l m (x & -> & H) _ (k & E & IH)]; [exists []; split; [reflexivity|constructor]|].
  cbn. rewrite E. exists (x :: k). split; [reflexivity|]. constructor; assumption.
Qed.
Lemma all_some_map_in {A B} (f : A -> option B) (g : A -> B) l : (forall x, In x l -> f x = Some (g x)) -> SegModel.all_some (map f l) = Some (map g l).
Proof.
  induction l as [|a l IH]; intros H; [reflexivity|]. cbn. rewrite (H a (or_introl eq_refl)), IH; [reflexivity|]. intros x Hx. apply H. right. exact Hx.
Qed.
Lemma Forall2_map {A B C D} (R : C -> D -> Prop) (f : A -> C) (g : B -> D) l m : Forall2 (fun x y => R (f x) (g y)) l m -> Forall2 R (map f l) (map g m).
Proof. induction 1; constructor; assumption. Qed.
Lemma Forall2_weaken {A B} (R S : A -> B -> Prop) l m : (forall x y, R x y -> S x y) -> Forall2 R l m -> Forall2 S l m.
Proof. induction 2; constructor; auto. Qed.
Lemma Forall2_same {A} (R : A -> A -> Prop) l : (forall x, In x l -> R x x) -> Forall2 R l l.
Proof. induction l; intros H; constructor; [apply H; left; reflexivity|apply IHl; intros x Hx; apply H; right; exact Hx]. Qed.
Lemma Forall2_flat {A B C} (R : B -> C -> Prop) (f : A -> list B) (g : A -> list C) l : (forall x, In x l -> Forall2 R (f x) (g x)) ->
  Forall2 R (flat_map f l) (flat_map g l).
Proof. induction l; intros H; [constructor|]. cbn. apply Forall2_app; [apply H; left; reflexivity|apply IHl; intros x Hx; apply H; right; exact Hx]. Qed.
Lemma Forall2_imap {A B C} (R : B -> C -> Prop) (f : nat -> A -> B) (l : list A) (m : list C) : Forall2 (fun x y => forall n, R (f n x) y) l m -> Forall2 R (imap f l) m.
Proof.
  unfold imap. generalize 0. intros k H. revert k. induction H as [|x y l m H _ IH]; intros k; [constructor|]. cbn. constructor; [apply H|apply IH].
Qed.
Lemma Forall2_eq {A} (l m : list A) : Forall2 eq l m -> l = m.
Proof. induction 1; congruence. Qed.
Lemma imap_const {A B} (f : A -> B) (l : list A) : imap (fun _ x => f x) l = map f l.
Proof. unfold imap. generalize 0. induction l as [|a l IH]; intros n; [reflexivity|]. cbn. rewrite IH. reflexivity. Qed.

(* ---------------------------------------------------------------- copies *)
Notation blank := (fun _ : list pstep => tt).
Lemma copy_list {I} (i : I) l : copy blank (PyList i l) = PyList tt (map (copy blank) l).
Proof. cbn. f_equal. generalize 0. induction l as [|a l IH]; intros n; [reflexivity|]. cbn. rewrite IH. reflexivity. Qed.
Lemma copy_tuple {I} (l : list (pyval I)) : copy blank (PyTuple l) = PyTuple (map (copy blank) l).
Proof. cbn. f_equal. generalize 0. induction l as [|a l IH]; intros n; [reflexivity|]. cbn. rewrite IH. reflexivity. Qed.
Lemma copy_dict {I} (i : I) d : copy blank (PyDict i d) = PyDict tt (map (fun kv => (fst kv, copy blank (snd kv))) d).
Proof. cbn. f_equal. induction d as [|[k a] l IH]; [reflexivity|]. cbn. rewrite IH. reflexivity. Qed.

Section Makers.
  Context {I : Type}.
  (* a maker gives the document, wherever its objects are created *)
  Definition realises (mk : maker I) (d : doc) : Prop := forall new, exists m, mk new = Some m /\ contents m = d.
  Definition entry (kv : string * list (maker I)) (kd : string * list doc) : Prop := fst kv = fst kd /\ Forall2 realises (snd kv) (snd kd).
  Lemma listing_docs new ty ms ds : Forall2 realises ms ds -> list_docs (listing new ty ms) = Some ds.
  Proof.
    intros H. unfold listing, list_docs.
    destruct (all_some_Forall2 (fun m d => contents m = d) (imap (fun n mk => mk (below (below new (Key (Some ty))) (At n))) ms) ds) as (k & -> & K).
    - apply Forall2_imap. induction H as [|mk d ms ds H _ IH]; constructor; [intros n; apply H|exact IH].
    - cbn. f_equal. clear H. induction K; [reflexivity|]. cbn. congruence.
  Qed.
  Lemma realise_docs new d r : Forall2 entry d r -> report_docs (realise new d) = Some r.
  Proof.
    intros H. unfold realise, report_docs.
    destruct (all_some_Forall2 (fun kv kd => (fst kv, map contents (snd kv)) = kd) (map (fun kv => option_map (pair (fst kv)) (listing new (fst kv) (snd kv))) d) r) as (k & -> & K).
    - induction H as [|[a ms] [b ds] d r [E H] _ IH]; constructor; [|exact IH]. cbn [fst snd] in *. subst b. apply (listing_docs new a) in H. unfold list_docs in H.
      destruct (listing new a ms) as [l|]; [|discriminate]. cbn in H. injection H as <-. exists (a, l). split; reflexivity.
    - cbn. f_equal. clear H. induction K; [reflexivity|]. cbn. congruence.
  Qed.
  Lemma appended_some l r : Forall2 entry l r -> Forall (fun kd => snd kd <> []) r -> Forall2 entry (appended l) r.
  Proof.
    induction 1 as [|kv kd l r H H' IH]; intros F; [constructor|]. inversion F as [|? ? Fa Fb]; subst. cbn.
    destruct H as [E H]. destruct (snd kv) as [|x t] eqn:S; [inversion H; subst; destruct Fa; congruence|]. cbn. constructor; [|apply IH; assumption].
    split; [exact E|rewrite S; exact H].
  Qed.
  Lemma appended_none (l : list (string * list (maker I))) : Forall (fun kv => snd kv = []) l -> appended l = [].
  Proof. induction 1 as [|kv l E H IH]; [reflexivity|]. cbn. rewrite E. exact IH. Qed.
End Makers.

(* what the constructors make *)
Lemma realises_make {I} ty (v p : supply I -> pyval I) dv dp :
  (forall new, value_type (v new) = true /\ copy blank (v new) = dv) ->
  (forall new, string_keys (p new) = true /\ copy blank (p new) = obj dp) ->
  realises (fun new => make ty (v new) (p new)) (document ty dv dp).
Proof.
  intros Hv Hp new. destruct (Hv new) as [A B]. destruct (Hp new) as [C D]. unfold make. rewrite A, C. cbn [andb].
  eexists. split; [reflexivity|]. unfold contents, to_dict, document. cbn [me_type me_value me_parameters]. unfold obj at 1. cbn [map fst snd].
  change (copy (blank // "value") (v new)) with (copy blank (v new)). change (copy (blank // "parameters") (p new)) with (copy blank (p new)).
  rewrite B, D. reflexivity.
Qed.
Ltac dparams := intros ?; split; [reflexivity|]; reflexivity.

(* ---------------------------------------------------------------- classification *)
Section Cls.
  Context {I : Type}.
  Variable hm : bool.
  Lemma r_accuracy t q : realises (fun new : supply I => cls_accuracy new (PyFloat q) t hm) (document "Accuracy" (PyFloat q) (at_threshold hm t)).
  Proof. apply realises_make; dparams. Qed.
  Lemma r_labelled ty q t l : realises (fun new : supply I => cls_labelled new ty (PyFloat q) t hm l) (document ty (PyFloat q) (for_label hm l t)).
  Proof. apply realises_make; dparams. Qed.
  Lemma r_count c t l : realises (fun new : supply I => cls_count new c t hm l) (document "Counts" (counts_doc c) (for_label hm l t)).
  Proof. apply realises_make; dparams. Qed.

  Lemma table_entries {V} (mk : V -> string -> Z -> maker I) (D : V -> string -> Z -> doc) ls thrs (f : string -> Z -> V) :
    (forall v l t, realises (mk v l t) (D v l t)) ->
    Forall2 realises (map (fun x new => match snd x with Some v => mk v (fst (fst x)) (snd (fst x)) new | None => None end) (table_of ls thrs f))
      (each ls thrs (fun l t => D (f l t) l t)).
  Proof.
    intros H. unfold table_of, each. rewrite <- flat_map_concat_map. induction ls as [|l ls IH]; [constructor|]. cbn. rewrite map_app. apply Forall2_app; [|exact IH].
    rewrite map_map. cbn [fst snd]. apply Forall2_map, Forall2_same. intros t _ new. apply H.
  Qed.
  Lemma each_some {X Y Z} (xs : list X) (ys : list Y) (f : X -> Y -> Z) : xs <> [] -> ys <> [] -> each xs ys f <> [].
  Proof. destruct xs; [congruence|]. destruct ys; [congruence|]. intros _ _; discriminate. Qed.

  Theorem cls_docs (new : supply I) tol thrs datums e ls acc c : thrs <> [] ->
    report_metrics e tol hm thrs datums = Some (MkMetrics (map (fun t => (t, acc t)) thrs) (table_of ls thrs c)
      (table_of ls thrs (fun l t => precision (c l t))) (table_of ls thrs (fun l t => recall (c l t)))
      (table_of ls thrs (fun l t => f1 (precision (c l t)) (recall (c l t))))) ->
    report_docs (cls_precision_recall new tol hm thrs datums e) = Some (cls_documents hm ls thrs acc c).
  Proof.
    intros Ht E. unfold cls_precision_recall. rewrite E. cbn [mt_accuracy mt_counts mt_precision mt_recall mt_f1]. apply realise_docs. unfold cls_documents. constructor.
    - split; [reflexivity|]. cbn [fst snd]. rewrite map_map. cbn [fst snd]. apply Forall2_map, Forall2_same. intros t _. apply r_accuracy.
    - assert (F : Forall2 (entry (I := I))
          [("Counts"%string, map (fun x new => match snd x with Some c => cls_count new c (snd (fst x)) hm (fst (fst x)) | None => None end) (table_of ls thrs c));
           ("Precision"%string, cls_labelled_makers "Precision" hm (table_of ls thrs (fun l t => precision (c l t))));
           ("Recall"%string, cls_labelled_makers "Recall" hm (table_of ls thrs (fun l t => recall (c l t))));
           ("F1"%string, cls_labelled_makers "F1" hm (table_of ls thrs (fun l t => f1 (precision (c l t)) (recall (c l t)))))]
          [("Counts"%string, each ls thrs (fun l t => document "Counts" (counts_doc (c l t)) (for_label hm l t)));
           ("Precision"%string, each ls thrs (fun l t => document "Precision" (PyFloat (precision (c l t))) (for_label hm l t)));
           ("Recall"%string, each ls thrs (fun l t => document "Recall" (PyFloat (recall (c l t))) (for_label hm l t)));
           ("F1"%string, each ls thrs (fun l t => document "F1" (PyFloat (f1 (precision (c l t)) (recall (c l t)))) (for_label hm l t)))]).
      { repeat apply Forall2_cons; try apply Forall2_nil; (split; [reflexivity|]); cbn [fst snd]; unfold cls_labelled_makers.
        - apply (table_entries (fun v l t new => cls_count new v t hm l) (fun v l t => document "Counts" (counts_doc v) (for_label hm l t))). intros; apply r_count.
        - apply (table_entries (fun v l t new => cls_labelled new "Precision" (PyFloat v) t hm l) (fun v l t => document "Precision" (PyFloat v) (for_label hm l t))). intros; apply r_labelled.
        - apply (table_entries (fun v l t new => cls_labelled new "Recall" (PyFloat v) t hm l) (fun v l t => document "Recall" (PyFloat v) (for_label hm l t))). intros; apply r_labelled.
        - apply (table_entries (fun v l t new => cls_labelled new "F1" (PyFloat v) t hm l) (fun v l t => document "F1" (PyFloat v) (for_label hm l t))). intros; apply r_labelled. }
      destruct ls as [|l ls]; [constructor|]. apply appended_some; [exact F|]. repeat constructor; apply each_some; congruence.
  Qed.
End Cls.

Lemma all_some_Some {A} (l : list A) : SegModel.all_some (map Some l) = Some l.
Proof. induction l as [|a l IH]; [reflexivity|]. cbn. rewrite IH. reflexivity. Qed.
Lemma nth_error_map {A B} (f : A -> B) l k : nth_error (map f l) k = option_map f (nth_error l k).
Proof. revert k. induction l as [|a l IH]; intros [|k]; cbn; auto. Qed.
Lemma nth_error_eq {A} (l m : list A) : (forall k, nth_error l k = nth_error m k) -> l = m.
Proof.
  revert m. induction l as [|a l IH]; intros [|b m] H; [reflexivity|specialize (H 0); discriminate|specialize (H 0); discriminate|].
  f_equal; [specialize (H 0); cbn in H; congruence|]. apply IH. intros k. exact (H (S k)).
Qed.
Lemma nth_indexed {A} (l : list A) k : nth_error (combine (seq 0 (length l)) l) k = option_map (pair k) (nth_error l k).
Proof.
  cut (forall n, nth_error (combine (seq n (length l)) l) k = option_map (pair (n + k)) (nth_error l k)); [intros H; rewrite H; reflexivity|].
  revert k. induction l as [|a l IH]; intros [|k] n; cbn; try reflexivity; [rewrite Nat.add_0_r; reflexivity|]. rewrite IH. replace (S n + k) with (n + S k) by lia. reflexivity.
Qed.

Section ClsMatrices.
  Context {I : Type}.
  Variable hm : bool.
  (* dictionaries of counts *)
  Lemma copy_counts (new : supply I) (f : string -> nat) ls :
    copy blank (count_dict new (named_keys (map (fun p => (p, f p)) ls))) = obj (map (fun p => (p, int (f p))) ls).
  Proof.
    unfold count_dict, named_keys, obj, int. rewrite copy_dict. f_equal. rewrite !map_map. apply map_ext. intros p. reflexivity.
  Qed.
  Lemma copy_table (new : supply I) (f : string -> string -> nat) ls :
    copy blank (count_table new (named_keys (map (fun r => (fst r, named_keys (snd r))) (map (fun g => (g, map (fun p => (p, f g p)) ls)) ls))))
    = matrix_doc ls (fun g p => int (f g p)).
  Proof.
    unfold count_table, matrix_doc, obj at 1. rewrite copy_dict. f_equal. unfold named_keys at 1. rewrite !map_map. apply map_ext. intros g. cbn [fst snd]. f_equal. apply copy_counts.
  Qed.
  Lemma r_matrix ls u pass cs t :
    realises (fun new : supply I => cls_matrix new
        (count_table (new // "value" // "confusion_matrix") (named_keys (map (fun r => (fst r, named_keys (snd r))) (map (fun g => (g, map (fun p => (p, data_cell u hm pass cs g p)) ls)) ls))))
        (count_dict (new // "value" // "unmatched_ground_truths") (named_keys (map (fun g => (g, data_missed u hm pass cs g)) ls))) t hm)
      (cls_matrix_document hm ls u pass cs t).
  Proof.
    apply realises_make; [|dparams]. intros new. split; [reflexivity|]. unfold vdict. rewrite copy_dict. cbn [map fst snd].
    rewrite (copy_table _ (data_cell u hm pass cs)), (copy_counts _ (data_missed u hm pass cs)). reflexivity.
  Qed.
  Theorem cls_matrix_docs (new : supply I) tol9 thrs datums e ls out u cs :
    report_confusion e tol9 hm thrs datums = Some out -> map fst out = thrs ->
    (forall k thr, nth_error thrs k = Some thr -> let pass := pass_cm tol9 (firstn (S k) thrs) in
      nth_error out k = Some (thr, (map (fun g => (g, map (fun p => (p, data_cell u hm pass cs g p)) ls)) ls,
                                    map (fun g => (g, data_missed u hm pass cs g)) ls))) ->
    list_docs (cls_confusion_report new tol9 hm thrs datums e)
    = Some (map (fun pt => cls_matrix_document hm ls u (pass_cm tol9 (fst pt)) cs (snd pt)) (prefixes thrs)).
  Proof.
    intros E Hf Hn. unfold cls_confusion_report. rewrite E.
    assert (out = map (fun pt => (snd pt, (map (fun g => (g, map (fun p => (p, data_cell u hm (pass_cm tol9 (fst pt)) cs g p)) ls)) ls,
                                    map (fun g => (g, data_missed u hm (pass_cm tol9 (fst pt)) cs g)) ls))) (prefixes thrs)) as ->.
    { apply nth_error_eq. intros k. unfold prefixes. rewrite map_map, nth_error_map, nth_indexed. cbn [fst snd].
      destruct (nth_error thrs k) as [t|] eqn:Ek; [apply (Hn k t Ek)|]. cbn. apply nth_error_None. apply nth_error_None in Ek. rewrite <- Hf, map_length in Ek. exact Ek. }
    apply listing_docs. rewrite map_map. apply Forall2_map, Forall2_same. intros pt _. cbn [fst snd]. apply r_matrix.
  Qed.

  (* examples *)
  Lemma copy_strings (new : supply I) l : copy blank (slist new l) = strings l.
  Proof. unfold slist, strings, arr. rewrite copy_list, map_map. reflexivity. Qed.
  Lemma olist_map (new : supply I) l : olist new (map Some l) = Some (slist new l).
  Proof. unfold olist. rewrite all_some_Some. reflexivity. Qed.
  Lemma r_example cs pos t c :
    realises (fun new : supply I => let x := listed cs pos t c in
      match nx_uid x, olist (new // "value" // "true_positives") (nx_tp x), olist (new // "value" // "false_positives") (nx_fp x),
            olist (new // "value" // "false_negatives") (nx_fn x) with
      | Some u, Some tp, Some fp, Some fn => cls_example new (PyStr u) tp fp fn (nx_thr x) hm
      | _, _, _, _ => None
      end) (example_doc hm cs pos t c).
  Proof.
    intros new. cbv zeta. unfold listed. cbn [nx_uid nx_thr nx_tp nx_fn nx_fp]. rewrite olist_map.
    set (fp := filter _ _).
    assert (A : olist (new // "value" // "true_positives") (if smem (c_groundtruth c) pos then [Some (c_groundtruth c)] else [])
      = Some (slist (new // "value" // "true_positives") (if smem (c_groundtruth c) pos then [c_groundtruth c] else []))) by (destruct (smem _ _); reflexivity).
    assert (B : olist (new // "value" // "false_negatives") (if smem (c_groundtruth c) pos then [] else [Some (c_groundtruth c)])
      = Some (slist (new // "value" // "false_negatives") (if smem (c_groundtruth c) pos then [] else [c_groundtruth c]))) by (destruct (smem _ _); reflexivity).
    rewrite A, B. unfold example_doc. fold fp. set (tp := if smem _ _ then [_] else []). set (fn := if smem _ _ then [] else [_]).
    refine (realises_make "Examples" (fun new => vdict new ["datum_id" ~> PyStr (c_uid c); "true_positives" ~> slist (new // "value" // "true_positives") tp;
        "false_positives" ~> slist (new // "value" // "false_positives") fp; "false_negatives" ~> slist (new // "value" // "false_negatives") fn])
      (fun new => params new ["score_threshold" ~> PyScore t; "hardmax" ~> PyBool hm]) _ (at_threshold hm t) _ _ new); [|dparams].
    intros n. split; [reflexivity|]. unfold vdict. rewrite copy_dict. cbn [map fst snd]. rewrite !copy_strings. reflexivity.
  Qed.
  Theorem cls_examples_docs (new : supply I) tol9 thrs datums limit offset e cs u page :
    cls_examples tol9 hm thrs datums limit offset e = Some (List.concat (map (datum_entries cs u tol9 hm thrs) page)) ->
    list_docs (cls_examples_report new tol9 hm thrs datums limit offset e)
    = Some (each page (prefixes thrs) (fun c pt => example_doc hm cs (vpositives u hm (pass_cm tol9 (fst pt)) c) (snd pt) c)).
  Proof.
    intros E. unfold cls_examples_report. rewrite E. apply listing_docs. unfold each. rewrite <- flat_map_concat_map. clear E.
    induction page as [|c page IH]; [constructor|]. cbn [flat_map]. rewrite map_app. apply Forall2_app; [|exact IH].
    unfold datum_entries, prefixes. rewrite !map_map. apply Forall2_map, Forall2_same. intros kt _. cbn [fst snd]. apply r_example.
  Qed.

  (* matrices with examples *)
  Lemma cell_copy {X Y} (new : supply I) (ex : supply I -> X -> option (pyval I)) (dx : Y -> doc) (h : Y -> X) (l : list Y) :
    (forall new y, In y l -> exists v, ex new (h y) = Some v /\ copy blank v = dx y) ->
    exists v, cell_dict new ex (counted (map h l)) = Some v /\ copy blank v = cell_doc dx l.
  Proof.
    intros H. unfold cell_dict, counted. cbn [fst snd].
    destruct (all_some_Forall2 (fun v y => copy blank v = dx y) (imap (fun n x => ex (below (new // "examples") (At n)) x) (map h l)) l) as (k & -> & K).
    - apply Forall2_imap. rewrite <- (map_id l) at 2. apply Forall2_map, Forall2_same. intros y Hy n. destruct (H (below (new // "examples") (At n)) y Hy) as (v & A & B). eauto.
    - cbn. eexists. split; [reflexivity|]. rewrite copy_dict. cbn [map fst snd]. rewrite copy_list. unfold cell_doc, obj, arr, int. cbn [map fst snd].
      rewrite map_length. rewrite (Forall2_eq (map (copy blank) k) (map dx l)); [reflexivity|]. apply Forall2_map. exact K.
  Qed.
  Lemma cells_copy {X Y} (new : supply I) (ex : supply I -> X -> option (pyval I)) (dx : string -> Y -> doc) (h : string -> Y -> X) (l : string -> list Y) ls :
    (forall new p y, In y (l p) -> exists v, ex new (h p y) = Some v /\ copy blank v = dx p y) ->
    exists v, cells_dict new ex (map (fun p => (Some p, counted (map (h p) (l p)))) ls) = Some v /\ copy blank v = row_doc ls (fun p => cell_doc (dx p) (l p)).
  Proof.
    intros H. unfold cells_dict.
    destruct (all_some_Forall2 (fun kv p => fst kv = Some p /\ copy blank (snd kv) = cell_doc (dx p) (l p))
      (map (fun x => option_map (pair (fst x)) (cell_dict (below new (Key (fst x))) ex (snd x))) (map (fun p => (Some p, counted (map (h p) (l p)))) ls)) ls) as (k & -> & K).
    - rewrite map_map. rewrite <- (map_id ls) at 2. apply Forall2_map, Forall2_same. intros p _. cbn [fst snd].
      destruct (cell_copy (below new (Key (Some p))) ex (dx p) (h p) (l p)) as (v & -> & B); [intros n y Hy; apply H; exact Hy|]. exists (Some p, v). split; [reflexivity|]. split; [reflexivity|exact B].
    - cbn. eexists. split; [reflexivity|]. rewrite copy_dict. unfold row_doc, obj. rewrite map_map. cbn [fst snd]. f_equal. apply Forall2_eq.
      apply Forall2_map. revert K. apply Forall2_weaken. intros [a v] p [A B]. cbn in *. congruence.
  Qed.
  Lemma tables_copy {X Y} (new : supply I) (ex : supply I -> X -> option (pyval I)) (dx : string -> string -> Y -> doc) (h : string -> string -> Y -> X) (l : string -> string -> list Y) ls ks :
    (forall new g p y, In y (l g p) -> exists v, ex new (h g p y) = Some v /\ copy blank v = dx g p y) ->
    exists v, cells_table new ex (map (fun g => (Some g, map (fun p => (Some p, counted (map (h g p) (l g p)))) ks)) ls) = Some v
      /\ copy blank v = row_doc ls (fun g => row_doc ks (fun p => cell_doc (dx g p) (l g p))).
  Proof.
    intros H. unfold cells_table.
    destruct (all_some_Forall2 (fun kv g => fst kv = Some g /\ copy blank (snd kv) = row_doc ks (fun p => cell_doc (dx g p) (l g p)))
      (map (fun x => option_map (pair (fst x)) (cells_dict (below new (Key (fst x))) ex (snd x))) (map (fun g => (Some g, map (fun p => (Some p, counted (map (h g p) (l g p)))) ks)) ls)) ls) as (k & -> & K).
    - rewrite map_map. rewrite <- (map_id ls) at 2. apply Forall2_map, Forall2_same. intros g _. cbn [fst snd].
      destruct (cells_copy (below new (Key (Some g))) ex (dx g) (h g) (l g) ks) as (v & -> & B); [intros n p y Hy; apply H; exact Hy|]. exists (Some g, v). split; [reflexivity|]. split; [reflexivity|exact B].
    - cbn. eexists. split; [reflexivity|]. rewrite copy_dict. unfold row_doc at 1. unfold obj. rewrite map_map. cbn [fst snd]. f_equal. apply Forall2_eq.
      apply Forall2_map. revert K. apply Forall2_weaken. intros [a v] p [A B]. cbn in *. congruence.
  Qed.
  Lemma positive_score u pass c p : In p (vpositives u hm pass c) -> exists s, score_of p c = Some s.
  Proof.
    intros H. unfold vpositives in H. apply filter_In in H. destruct H as [H _].
    assert (E : exists s, In (p, s) (ClsSpec.candidates c)).
    { unfold positives in H. destruct hm.
      - destruct (ClsSpec.top c) as [[l s]|] eqn:T; [|destruct H]. destruct (pass s); [|destruct H]. destruct H as [->|[]]. exists s. exact (top_In c _ T).
      - apply in_map_iff in H. destruct H as ([l s] & E & H). cbn in E. subst l. apply filter_In in H. exists s. exact (proj1 H). }
    destruct E as (s & E). unfold score_of. destruct (find (fun q => String.eqb (fst q) p) (ClsSpec.candidates c)) as [x|] eqn:F; [eexists; reflexivity|].
    apply (find_none _ _ F) in E. cbn in E. rewrite String.eqb_refl in E. discriminate.
  Qed.
  Lemma r_matrix_examples ls u pass cs t :
    realises (fun new : supply I => let M := cmx_of ls u hm pass cs in
      match cells_table (new // "value" // "confusion_matrix") cls_match_example (named_keys (map (fun r => (fst r, named_keys (snd r))) (cx_cells M))),
            cells_dict (new // "value" // "unmatched_ground_truths") cls_lone_example (named_keys (cx_unmatched M)) with
      | Some cm, Some un => cls_matrix_examples new cm un t hm
      | _, _ => None
      end) (cls_matrix_examples_document hm ls u pass cs t).
  Proof.
    intros new. cbv zeta. unfold cmx_of. cbn [cx_cells cx_unmatched]. unfold named_keys at 1. rewrite !map_map. cbn [fst snd].
    assert (E : forall g, named_keys (map (fun p => (p, counted (map (fun c => (Some (c_uid c), score_of p c))
        (filter (fun c => String.eqb (c_groundtruth c) g && smem p (vpositives u hm pass c)) cs)))) ls)
      = map (fun p => (Some p, counted (map (fun c => (Some (c_uid c), score_of p c))
        (filter (fun c => String.eqb (c_groundtruth c) g && smem p (vpositives u hm pass c)) cs)))) ls) by (intros g; unfold named_keys; rewrite map_map; reflexivity).
    erewrite (map_ext (fun x => (Some x, named_keys _))) by (intros g; rewrite E; reflexivity). clear E.
    destruct (tables_copy (new // "value" // "confusion_matrix") cls_match_example
      (fun _ p c => obj (("datum_id"%string, PyStr (c_uid c)) :: match score_of p c with Some s => [("score"%string, PyScore s)] | None => [] end))
      (fun _ p c => (Some (c_uid c), score_of p c)) (fun g p => filter (fun c => String.eqb (c_groundtruth c) g && smem p (vpositives u hm pass c)) cs) ls ls) as (cm & -> & C1).
    { intros n g p c Hc. apply filter_In in Hc. destruct Hc as [_ Hc]. apply andb_true_iff in Hc. destruct Hc as [_ Hc]. apply smem_In in Hc.
      destruct (positive_score u pass c p Hc) as (s & ->). eexists. split; reflexivity. }
    unfold named_keys. rewrite map_map. cbn [fst snd].
    destruct (cells_copy (new // "value" // "unmatched_ground_truths") cls_lone_example (fun _ c => obj [("datum_id"%string, PyStr (c_uid c))]) (fun _ c => Some (c_uid c))
      (fun g => filter (fun c => visible u c && (String.eqb (c_groundtruth c) g && match vpositives u hm pass c with [] => true | _ => false end)) cs) ls) as (un & -> & C2).
    { intros n g c _. eexists. split; reflexivity. }
    refine (realises_make "ConfusionMatrixWithExamples" (fun new => vdict new ["confusion_matrix" ~> cm; "unmatched_ground_truths" ~> un])
      (fun new => params new ["score_threshold" ~> PyScore t; "hardmax" ~> PyBool hm]) _ (at_threshold hm t) _ _ new); [|dparams].
    intros n. split; [reflexivity|]. unfold vdict. rewrite copy_dict. cbn [map fst snd]. rewrite C1, C2. reflexivity.
  Qed.
  Theorem cls_matrix_examples_docs (new : supply I) tol9 thrs datums e ls u cs :
    cls_confusion_examples tol9 hm thrs datums e
    = Some (map (fun kt => (snd kt, Some (cmx_of ls u hm (pass_cm tol9 (firstn (S (fst kt)) thrs)) cs))) (combine (seq 0 (length thrs)) thrs)) ->
    list_docs (cls_confusion_examples_report new tol9 hm thrs datums e)
    = Some (map (fun pt => cls_matrix_examples_document hm ls u (pass_cm tol9 (fst pt)) cs (snd pt)) (prefixes thrs)).
  Proof.
    intros E. unfold cls_confusion_examples_report. rewrite E. apply listing_docs. unfold prefixes. rewrite !map_map. cbn [fst snd].
    apply Forall2_map, Forall2_same. intros kt _. apply (r_matrix_examples ls u (pass_cm tol9 (firstn (S (fst kt)) thrs)) cs (snd kt)).
  Qed.

  (* ROC AUC *)
  Theorem cls_rocauc_docs (new : supply I) (e : ceval) ls : map fst (fst (report_rocauc e)) = ls ->
    (forall l q, In (l, q) (fst (report_rocauc e)) -> exists i v, has_number e l i /\ q = Some v /\ nth_error (cls_rocauc e) i = Some v) ->
    snd (report_rocauc e) = mean (cls_rocauc e) ->
    exists vs, Forall2 (fun l v => exists i, has_number e l i /\ nth_error (cls_rocauc e) i = Some v) ls vs /\
    report_docs (cls_rocauc_metrics new e) = Some (roc_documents (combine ls vs) (mean (cls_rocauc e))).
  Proof.
    intros <- H M. unfold cls_rocauc_metrics. rewrite M. set (rs := fst (report_rocauc e)) in *.
    assert (X : exists vs, Forall2 (fun l v => exists i, has_number e l i /\ nth_error (cls_rocauc e) i = Some v) (map fst rs) vs
        /\ Forall2 (realises (I := I)) (map (fun x new => match snd x with Some q => cls_roc_auc new (PyFloat q) (fst x) | None => None end) rs)
             (map (fun lv => document "ROCAUC" (PyFloat (snd lv)) [("label"%string, PyStr (fst lv))]) (combine (map fst rs) vs))).
    { clear M. clearbody rs. induction rs as [|[l q] rs IH]; [exists []; split; constructor|]. destruct IH as (vs & A & B); [intros; apply H; right; assumption|].
      destruct (H l q (or_introl eq_refl)) as (i & v & C & -> & D). exists (v :: vs). split; [constructor; eauto|]. cbn [map combine fst snd]. constructor; [|exact B].
      apply realises_make; dparams. }
    destruct X as (vs & A & B). exists vs. split; [exact A|]. apply realise_docs. constructor; [split; [reflexivity|exact B]|]. constructor; [|constructor].
    split; [reflexivity|]. constructor; [|constructor]. unfold mean_doc, or_nan. destruct (mean (cls_rocauc e)); apply realises_make; dparams.
  Qed.
End ClsMatrices.
