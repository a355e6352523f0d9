(* C11, C12: cache life cycle. Model: LifecycleModel.v; [holds_cache s p c]
   (LifecycleProofs.v): the path p holds a directory with configuration c, data
   files and nothing else. *)
From Verif Require Import Prelude LifecycleModel LifecycleProofs.
From Coq Require Import String.
Local Open Scope nat_scope.
Local Open Scope list_scope.

Theorem C11_create_then_load :
  forall (s : fs) (p : path) (c : config) (flag : bool),
    s p = None -> cfg_truthy c = true ->
    outcome (create_trace s p c flag) = None
    /\ load (final s (create_trace s p c flag)) p = inl c.
Proof.
  intros s p c f E Hc. destruct (create_absent s p c f E) as [H1 H2].
  split; [exact H1|]. apply load_healthy; [exists []; exact H2|exact Hc].
Qed.
Print Assumptions C11_create_then_load.

Definition ex_cfg : config := MkCfg 10 100 "snappy" 7.
Example C11_example : fs_empty 3 = None /\ cfg_truthy ex_cfg = true.
Proof. split; reflexivity. Qed.

Theorem C11_create_refuses_existing :
  forall (s : fs) (p : path) (c : config) (n : node),
    s p = Some n -> create_trace s p c false = ([], Some EFileExists).
Proof. exact create_exists. Qed.
Print Assumptions C11_create_refuses_existing.

Theorem C11_create_replaces_existing :
  forall (s : fs) (p : path) (c c' : config),
    holds_cache s p c -> cfg_truthy c = true -> cfg_truthy c' = true ->
    outcome (create_trace s p c' true) = None
    /\ load (final s (create_trace s p c' true)) p = inl c'
    /\ final s (create_trace s p c' true) p = Some (NDir (MkDir (Some (CfgWritten c')) [] [])).
Proof.
  intros s p c c' Hh Hc Hc'. destruct (create_over s p c c' Hh Hc) as [H1 H2].
  split; [exact H1|]. split; [|exact H2]. apply load_healthy; [exists []; exact H2|exact Hc'].
Qed.
Print Assumptions C11_create_replaces_existing.

Theorem C11_delete_removes_and_is_idempotent :
  forall (s : fs) (p : path) (c : config),
    holds_cache s p c -> cfg_truthy c = true ->
    let s' := final s (delete_trace s p) in
    outcome (delete_trace s p) = None /\ s' p = None
    /\ outcome (delete_trace s' p) = None /\ final s' (delete_trace s' p) = s'.
Proof.
  intros s p c Hh Hc s'. destruct (delete_healthy s p c Hh Hc) as [H1 H2].
  split; [exact H1|]. split; [exact H2|].
  unfold s' at 1 3. rewrite (delete_absent _ _ H2). split; reflexivity.
Qed.
Print Assumptions C11_delete_removes_and_is_idempotent.

(* at every intermediate moment, other paths are untouched *)
Theorem C11_other_paths_untouched :
  forall (s : fs) (p q : path) (c : config) (flag : bool), q <> p ->
    (forall s', In s' (crash_states s (create_trace s p c flag)) -> s' q = s q)
    /\ (forall s', In s' (crash_states s (delete_trace s p)) -> s' q = s q).
Proof.
  intros s p q c f Hq. split; intros s' [<-|H]; try reflexivity.
  - pose proof (create_frame s p c f q Hq) as F. rewrite Forall_forall in F. exact (F s' H).
  - pose proof (delete_frame s p q Hq) as F. rewrite Forall_forall in F. exact (F s' H).
Qed.
Print Assumptions C11_other_paths_untouched.

(* in every crash-free history each path is absent or holds a loadable cache,
   so create(delete_if_exists=True) succeeds everywhere *)
Theorem C11_histories_stay_healthy :
  forall (ops : list fsop) (p : path) (c : config),
    forallb valid_op ops = true ->
    (fs_run ops p = None \/ exists c0, holds_cache (fs_run ops) p c0 /\ load (fs_run ops) p = inl c0)
    /\ outcome (create_trace (fs_run ops) p c true) = None.
Proof.
  intros ops p c H. pose proof (healthy_run ops H) as Hh. split.
  - destruct (Hh p) as [E|(c0 & H1 & H2)]; [left; exact E|right].
    exists c0. split; [exact H1|]. apply load_healthy; assumption.
  - apply create_true_iff. apply Hh.
Qed.
Print Assumptions C11_histories_stay_healthy.

Example C11_history_example :
  forallb valid_op [OpCreate 1 ex_cfg false; OpAddFile 1 0; OpAddFile 1 1; OpCreate 2 ex_cfg true; OpDelete 2] = true
  /\ fs_run [OpCreate 1 ex_cfg false; OpAddFile 1 0; OpAddFile 1 1; OpCreate 2 ex_cfg true; OpDelete 2] 1
     = Some (NDir (MkDir (Some (CfgWritten ex_cfg)) [0;1] [])).
Proof. split; reflexivity. Qed.

(* Finding: a cache created with batch_size 0 (accepted by create) cannot be
   loaded or deleted: _retrieve (persistent.py:132-137) treats 0 as missing. *)
Theorem C11_zero_batch_size_refuted :
  exists (c : config),
    let s := final fs_empty (create_trace fs_empty 0 c false) in
    outcome (create_trace fs_empty 0 c false) = None /\ load s 0 = inr EKeyError
    /\ outcome (delete_trace s 0) = Some EKeyError.
Proof. exists (MkCfg 0 100 "snappy" 7). vm_compute. repeat split. Qed.
Print Assumptions C11_zero_batch_size_refuted.

(* Finding: delete fails, after having destroyed the data and the configuration,
   when the directory contains any other entry. *)
Theorem C11_delete_with_foreign_entry_refuted :
  exists (s : fs) (p : path),
    (exists c, load s p = inl c) /\ outcome (delete_trace s p) = Some ENotEmpty
    /\ load (final s (delete_trace s p)) p = inr EFileNotFound.
Proof.
  exists (fs_set fs_empty 0 (Some (NDir (MkDir (Some (CfgWritten ex_cfg)) [0] [5])))), 0.
  vm_compute. split; [eexists; reflexivity|]. split; reflexivity.
Qed.
Print Assumptions C11_delete_with_foreign_entry_refuted.

(* ---------------------------------------------------------------- C12 *)
(* Findings: crashes after which create(delete_if_exists=True) fails. *)
Theorem C12_crash_in_create_refuted :
  exists (c : config) (s' : fs),
    In s' (crash_states fs_empty (create_trace fs_empty 0 c false))
    /\ outcome (create_trace s' 0 c true) <> None.
Proof.
  exists ex_cfg, (fs_set fs_empty 0 (Some (NDir (MkDir None [] [])))).
  split; [right; left; reflexivity|]. vm_compute. discriminate.
Qed.
Print Assumptions C12_crash_in_create_refuted.

Theorem C12_crash_in_delete_refuted :
  exists (s s' : fs) (p : path) (c : config),
    holds_cache s p c /\ cfg_truthy c = true
    /\ In s' (crash_states s (delete_trace s p)) /\ outcome (create_trace s' p c true) <> None.
Proof.
  exists (fs_run [OpCreate 0 ex_cfg false]).
  eexists (fs_set _ 0 (Some (NDir (MkDir None [] [])))), 0, ex_cfg.
  split; [exists []; reflexivity|]. split; [reflexivity|].
  split; [right; left; reflexivity|]. vm_compute. discriminate.
Qed.
Print Assumptions C12_crash_in_delete_refuted.

(* exactly when a later create(delete_if_exists=True) succeeds *)
Theorem C12_recoverable_iff :
  forall (s : fs) (p : path) (c' : config),
    outcome (create_trace s p c' true) = None <->
    s p = None \/ exists c, holds_cache s p c /\ cfg_truthy c = true.
Proof. exact create_true_iff. Qed.
Print Assumptions C12_recoverable_iff.

(* Missing from C12 (and false): the window without a complete .cfg. Every other
   crash point is recoverable. *)
Theorem C12_crash_recovery_partial :
  forall (s : fs) (p : path) (c c' : config), cfg_truthy c = true ->
    (s p = None -> forall s', In s' (crash_states s (create_trace s p c false)) ->
       outcome (create_trace s' p c' true) = None
       \/ s' p = Some (NDir (MkDir None [] [])) \/ s' p = Some (NDir (MkDir (Some CfgTruncated) [] [])))
    /\ (holds_cache s p c -> forall s', In s' (crash_states s (delete_trace s p)) ->
       outcome (create_trace s' p c' true) = None \/ s' p = Some (NDir (MkDir None [] []))).
Proof.
  intros s p c c' Hc. split.
  - intros E. exact (create_crash s p c c' E Hc).
  - intros Hh. exact (delete_crash s p c c' Hh Hc).
Qed.
Print Assumptions C12_crash_recovery_partial.
