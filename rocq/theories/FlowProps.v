(* C23 and the end-to-end parts of C13, C18: the classification loader and the
   evaluators it produces.  Model: FlowModel.v; vocabulary: ClsSpec.v, FlowMore.v
   (data_of, still_open). *)
From Verif Require Import Prelude CacheModel CacheSpec Counting ClsModel RocModel ClsSpec ClsLabelProofs ClsProofs
  ClsConfProofs SortProofs RocProofs RocMain FlowModel FlowProofs FlowMore ClsLemmas ClsMore ClsDemo.
From Coq Require Import String.
Local Open Scope nat_scope.
Local Open Scope list_scope.

(* ---------------------------------------------------------------- C23 *)
(* In memory, after any history of add_data and finalize calls: finalize raises
   EmptyCacheError if nothing was added, succeeds if no earlier finalize had data, and
   raises otherwise.  On success the evaluator holds exactly the data added so far. *)
Theorem C23_finalize_protocol_memory :
  forall bs rb h, wellformed_calls h ->
    let r := mb_finalize bs rb (fold_left (mb_call bs rb) h mb_init) in
    (data_of h = [] -> snd r = EmptyCache)
    /\ (data_of h <> [] -> still_open h ->
          exists e, snd r = Done e /\ stored (data_of h) [me_table e] /\ me_labels e = extract_labels [me_table e])
    /\ (~ still_open h -> snd r = AlreadyFinalized).
Proof.
  intros bs rb h Hw r. split; [|split].
  - apply m_finalize_empty; auto.
  - intros Hd Ho. unfold r. rewrite (m_open bs rb h Hw Ho).
    destruct (mb_finalize_done (data_of h) (data_accepted h Hw) Hd bs rb (labels_of (data_of h)) (List.length (data_of h)))
      as (b' & e & inter & E & Hst & El & _). exists e. unfold m_open_state. rewrite E. auto.
  - apply m_finalize_again; auto.
Qed.
Print Assumptions C23_finalize_protocol_memory.

(* Full claim: and later calls on the loader do not change what the evaluator sees.
   False of the code with files, see below; in memory the evaluator is a value.
   The same with files, for any order in which the directory is listed. *)
Theorem C23_finalize_protocol_files_partial :
  forall bs rpf rb h, batching_ok rb -> wellformed_calls h ->
    let r := fb_finalize bs rpf rb (fold_left (fb_call bs rpf rb) h fb_init) in
    (data_of h = [] -> snd r = EmptyCache)
    /\ (data_of h <> [] -> still_open h ->
          exists d, snd r = Done d /\ d = extract_labels (fe_tables (fst r))
            /\ forall listing, Permutation listing (f_dir (fb_writer (fst r))) ->
                 stored (data_of h) (file_tables listing) /\ file_tables listing = fe_tables (fst r))
    /\ (~ still_open h -> snd r = AlreadyFinalized).
Proof.
  intros bs rpf rb h Hrb Hw r. split; [|split].
  - apply f_finalize_empty; auto.
  - intros Hd Ho. unfold r. rewrite (f_open bs rpf rb h Hw Ho).
    destruct (fb_finalize_done (data_of h) (data_accepted h Hw) Hd bs rpf rb (labels_of (data_of h)) (List.length (data_of h)) Hrb)
      as (b' & d & inter & E & Hst & Ed & _). exists d. unfold f_open_state. rewrite E. auto.
  - apply f_finalize_again; auto.
Qed.
Print Assumptions C23_finalize_protocol_files_partial.

(* "At most one success" spelled out: once a finalize had data, every later one raises. *)
Theorem C23_second_finalize_raises :
  forall bs rpf rb p q, batching_ok rb -> wellformed_calls (p ++ Finalize :: q) -> data_of p <> [] ->
    snd (mb_finalize bs rb (fold_left (mb_call bs rb) (p ++ Finalize :: q) mb_init)) = AlreadyFinalized
    /\ snd (fb_finalize bs rpf rb (fold_left (fb_call bs rpf rb) (p ++ Finalize :: q) fb_init)) = AlreadyFinalized.
Proof.
  intros bs rpf rb p q Hrb Hw Hd.
  assert (N : ~ still_open (p ++ Finalize :: q)) by (intros H; apply Hd, (H p q eq_refl)).
  split; [apply m_finalize_again; auto|apply f_finalize_again; auto].
Qed.
Print Assumptions C23_second_finalize_raises.

Example C23_example :
  let h := [Finalize; Add (firstn 2 demo); Add (skipn 2 demo)] in
  wellformed_calls h /\ still_open h /\ data_of h = demo
  /\ batching_ok (fun t : list irow => map (fun r => [r]) t).
Proof.
  split; [repeat constructor|]. split.
  { change [Finalize; Add (firstn 2 demo); Add (skipn 2 demo)]
      with ((([] ++ [Finalize]) ++ [Add (firstn 2 demo)]) ++ [Add (skipn 2 demo)]).
    apply still_open_add, still_open_add, still_open_finalize; [apply still_open_nil|reflexivity]. }
  split; [reflexivity|]. intros l. split; [induction l as [|x t IH]; cbn; f_equal; exact IH|].
  apply Forall_map, Forall_forall. discriminate.
Qed.

(* A file-backed evaluator reads the directory again on every computation, so data
   added after finalize reaches an evaluator that already exists: *)
Theorem C23_evaluator_isolation_files_refuted :
  exists (c1 c2 : list classification) b1 b2,
    let rb := fun t : list irow => [t] in
    b1 = fold_left (fb_call 10 10 rb) [Add c1; Finalize] fb_init
    /\ b2 = fold_left (fb_call 10 10 rb) [Add c1; Finalize; Add c2; Finalize] fb_init
    /\ snd (fb_finalize 10 10 rb (fold_left (fb_call 10 10 rb) [Add c1; Finalize; Add c2] fb_init)) = AlreadyFinalized
    /\ extract_counts (fun _ => true) (fe_tables b1) = 2
    /\ extract_counts (fun _ => true) (fe_tables b2) = 4.
Proof.
  exists (firstn 2 demo), (skipn 2 demo). eexists. eexists. split; [reflexivity|]. split; [reflexivity|].
  split; [vm_compute; reflexivity|]. split; vm_compute; reflexivity.
Qed.
Print Assumptions C23_evaluator_isolation_files_refuted.

(* ---------------------------------------------------------------- C13 *)
(* The label map of a finalized evaluator is the map index -> label in order of first
   appearance over all add_data calls, on both back ends. *)
Theorem C13_evaluator_labels :
  forall bs rpf rb h, batching_ok rb -> wellformed_calls h -> data_of h <> [] -> still_open h ->
    (exists e, snd (mb_finalize bs rb (fold_left (mb_call bs rb) h mb_init)) = Done e
       /\ forall (i : nat) l, dict_get (me_labels e) (Z.of_nat i) = Some l <-> nth_error (labels_of (data_of h)) i = Some l)
    /\ (exists d, snd (fb_finalize bs rpf rb (fold_left (fb_call bs rpf rb) h fb_init)) = Done d
       /\ forall (i : nat) l, dict_get d (Z.of_nat i) = Some l <-> nth_error (labels_of (data_of h)) i = Some l).
Proof.
  intros bs rpf rb h Hrb Hw Hd Ho. pose proof (data_accepted h Hw) as Ha. split.
  - destruct (C23_finalize_protocol_memory bs rb h Hw) as (_ & H & _). destruct (H Hd Ho) as (e & E & Hst & El).
    exists e. split; [exact E|]. rewrite El. apply extracted_get; auto.
  - destruct (C23_finalize_protocol_files_partial bs rpf rb h Hrb Hw) as (_ & H & _). destruct (H Hd Ho) as (d & E & El & Hst).
    exists d. split; [exact E|]. rewrite El. apply extracted_get; auto.
    destruct (Hst _ (Permutation_refl _)) as [X <-]. exact X.
Qed.
Print Assumptions C13_evaluator_labels.

(* ---------------------------------------------------------------- C18 *)
(* The same data, added in any calls, evaluated in memory or from files, with any batch
   size and file size, gives the same counts and confusion matrices. *)
Theorem C18_backends_agree :
  forall bs bs' rpf rb rb' h h', batching_ok rb' -> wellformed_calls h -> wellformed_calls h' ->
    still_open h -> still_open h' -> data_of h <> [] -> data_of h = data_of h' ->
    exists e d b', snd (mb_finalize bs rb (fold_left (mb_call bs rb) h mb_init)) = Done e
      /\ fb_finalize bs' rpf rb' (fold_left (fb_call bs' rpf rb') h' fb_init) = (b', Done d)
      /\ (forall tol hm thrs n datums,
            evaluate_counts tol hm thrs n datums [me_table e] = evaluate_counts tol hm thrs n datums (fe_tables b'))
      /\ (forall tol9 hm thrs datums,
            Forall2 (fun a b => (forall g p, cm a g p = cm b g p) /\ (forall g, cm_unmatched a g = cm_unmatched b g))
              (evaluate_confusion tol9 hm thrs datums [me_table e]) (evaluate_confusion tol9 hm thrs datums (fe_tables b')))
      /\ (forall datums, extract_counts datums [me_table e] = extract_counts datums (fe_tables b')).
Proof.
  intros bs bs' rpf rb rb' h h' Hrb Hw Hw' Ho Ho' Hd Hdd.
  destruct (C23_finalize_protocol_memory bs rb h Hw) as (_ & H & _). destruct (H Hd Ho) as (e & E & [Hp1 Ha1] & _).
  destruct (C23_finalize_protocol_files_partial bs' rpf rb' h' Hrb Hw') as (_ & H' & _).
  rewrite Hdd in *. destruct (H' Hd Ho') as (d & E' & _ & Hst).
  destruct (fb_finalize bs' rpf rb' (fold_left (fb_call bs' rpf rb') h' fb_init)) as [b' r] eqn:Eb. cbn [fst snd] in *. subst r.
  destruct (Hst _ (Permutation_refl _)) as [[Hp2 Ha2] Et]. fold (fe_tables b') in Hp2, Ha2.
  assert (P : Permutation (List.concat [me_table e]) (List.concat (fe_tables b'))) by (rewrite Hp1, Hp2; reflexivity).
  exists e, d, b'. split; [exact E|]. split; [reflexivity|]. split; [|split]; intros.
  - apply counts_split; auto.
  - apply confusion_split; auto.
  - apply datums_split; auto.
Qed.
Print Assumptions C18_backends_agree.
