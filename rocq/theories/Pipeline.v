(* Writing rows call by call, then flushing and sorting in place: what the readers
   see, for any row type (used by object detection and segmentation). *)
From Verif Require Import Prelude CacheModel CacheSpec CacheProofs CacheSizeProofs SortProofs CacheLemmas FlowProofs.
Local Open Scope nat_scope.
Local Open Scope list_scope.

Section Pipe.
  Context {A : Type}.
  Variable ws : list (list A).
  Hypothesis Hne : Forall (fun w => w <> []) ws.

  Definition rops : list (wop A) := map WriteRows ws.

  Lemma rops_written : written rops = concat ws.
  Proof. unfold written, rops. rewrite map_map. cbn [op_rows]. rewrite map_id. reflexivity. Qed.
  Lemma rops_batches : batches rops = ws.
  Proof.
    assert (G : forall l : list (list A), Forall (fun w => w <> []) l -> batches (map WriteRows l) = l).
    { unfold batches. induction 1 as [|w t Hw _ IH]; [reflexivity|]. cbn [map concat].
      rewrite IH. destruct w; [congruence|reflexivity]. }
    apply G, Hne.
  Qed.
  Lemma rops_no_table : forallb (fun o => negb (is_table o)) rops = true.
  Proof. apply forallb_forall. intros o Ho. unfold rops in Ho. apply in_map_iff in Ho. destruct Ho as (w & <- & _). reflexivity. Qed.

  Lemma mem_rows_table bs : m_table (mem_flush (mem_run bs rops)) = concat ws.
  Proof.
    change (m_table (mem_flush (mem_run bs rops))) with (mem_read (mem_run bs rops)).
    rewrite mem_order; [apply rops_written|]. apply mem_safe_no_table, rops_no_table.
  Qed.

  Lemma mem_pipe (f : list A -> list A) bs :
    mem_read (mem_sort_by f (mem_flush (mem_run bs rops))) = f (concat ws).
  Proof.
    unfold mem_sort_by, mem_read. unfold mem_flush at 1. cbn [m_buffer m_table].
    rewrite mem_buffer_flush. cbn [m_table].
    unfold mem_flush at 1. rewrite mem_buffer_flush. rewrite mem_rows_table. reflexivity.
  Qed.

  Lemma file_flush_twice (s : file_state A) : f_dir (file_flush (file_flush s)) = f_dir (file_flush s).
  Proof. reflexivity. Qed.

  Lemma file_rows_count' bs rpf : file_count_rows (f_dir (file_flush (file_run bs rpf rops))) = length (concat ws).
  Proof.
    destruct (ghost_final bs rpf rops) as (gs & (Hs & Hm & _) & Hc). rewrite rops_batches in Hc.
    unfold file_count_rows.
    assert (E : concat ws = concat (map snd (f_dir (file_flush (file_run bs rpf rops))))).
    { rewrite Hm, concat_map_concat, Hc. reflexivity. }
    rewrite E, length_concat, map_map. reflexivity.
  Qed.

  (* the files are groups of whole write calls, each sorted *)
  Lemma file_pipe (f : list A -> list A) bs rpf :
    exists gs, concat gs = ws /\
      forall listing, Permutation listing (f_dir (file_sort_by f (file_flush (file_run bs rpf rops)))) ->
        file_tables listing = map f (map (@concat A) gs).
  Proof.
    destruct (ghost_final bs rpf rops) as (gs & (Hs & Hm & _) & Hc). rewrite rops_batches in Hc.
    exists gs. split; [exact Hc|]. intros listing Hp.
    set (s := file_flush (file_run bs rpf rops)) in *.
    assert (E : f_dir (file_sort_by f s) = map (fun e => (fst e, f (snd e))) (f_dir s)).
    { unfold file_sort_by. cbn [f_dir]. unfold s. rewrite file_flush_twice. reflexivity. }
    rewrite E in Hp.
    assert (Hs2 : StronglySorted idx_lt (map (fun e => (fst e, f (snd e))) (f_dir s))).
    { clear -Hs. induction Hs as [|e d Hs IH Hf]; cbn; constructor; auto. rewrite Forall_map. exact Hf. }
    rewrite (file_tables_listing _ _ Hs2 Hp). rewrite map_map. cbn [snd]. rewrite <- Hm, map_map. reflexivity.
  Qed.
End Pipe.

Lemma mem_writes_run {A} bs (ws : list (list A)) : fold_left (mem_write_rows bs) ws mem_init = mem_run bs (rops ws).
Proof.
  unfold mem_run, rops. generalize (@mem_init A). induction ws as [|w t IH]; intros s; [reflexivity|]. apply IH.
Qed.
Lemma file_writes_run {A} bs rpf (ws : list (list A)) : fold_left (file_write_rows bs rpf) ws file_init = file_run bs rpf (rops ws).
Proof.
  unfold file_run, rops. generalize (@file_init A). induction ws as [|w t IH]; intros s; [reflexivity|]. apply IH.
Qed.

Lemma aligned_sorted {A} (key : A -> Z) (f : list A -> list A) (ts : list (list A)) :
  (forall t, Permutation t (f t)) -> aligned key ts -> aligned key (map f ts).
Proof.
  intros Hf. apply aligned_perm. induction ts; cbn; constructor; auto.
Qed.
Lemma concat_sorted {A} (f : list A -> list A) (ts : list (list A)) :
  (forall t, Permutation t (f t)) -> Permutation (concat ts) (concat (map f ts)).
Proof. intros Hf. apply concat_perm. induction ts; cbn; constructor; auto. Qed.
