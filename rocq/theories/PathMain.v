(* Proofs about create, delete and sort_by of file caches at arbitrary paths (C119). *)
From Verif Require Import Prelude CacheModel CacheSpec CacheLemmas CacheProofs PathModel PathSpec PathProofs.
From Coq Require Import Ascii.
Local Open Scope nat_scope.
Local Open Scope list_scope.

Section Main.
  Context {A : Type}.
  Implicit Types t u : tree A.

  (* ---------------------------------------------------------------- create *)

  Lemma exists_lookup t q : exists_dir t q = true <-> exists d, lookup t q = Some d.
  Proof.
    unfold exists_dir. destruct (lookup t q) as [d|]; split; intros H; try discriminate; [exists d; reflexivity|reflexivity|].
    destruct H as [d H]. discriminate.
  Qed.

  Lemma make_dirs_keep t base rest q d : lookup t q = Some d -> lookup (make_dirs t base rest) q = Some d.
  Proof.
    revert t base. induction rest as [|c r IH]; intros t base H; simpl; [exact H|].
    apply IH. destruct (exists_dir t (base ++ [c])); [exact H|]. rewrite lookup_app, H. reflexivity.
  Qed.

  Lemma make_dirs_there t base rest q r : rest = q ++ r -> q <> [] -> exists_dir (make_dirs t base rest) (base ++ q) = true.
  Proof.
    revert t base q. induction rest as [|c rest IH]; intros t base q E Hq.
    - destruct q; [contradiction|discriminate].
    - destruct q as [|c' q]; [contradiction|]. inversion E; subst. simpl.
      assert (Hc : exists_dir (if exists_dir t (base ++ [c']) then t else t ++ [(base ++ [c'], MkNode false [])]) (base ++ [c']) = true).
      { destruct (exists_dir t (base ++ [c'])) eqn:Ec; [exact Ec|].
        apply exists_keys. rewrite map_app. apply in_or_app. right. left. reflexivity. }
      destruct q as [|c2 q].
      + apply exists_lookup in Hc. destruct Hc as [d Hc]. apply exists_lookup. exists d. apply make_dirs_keep. exact Hc.
      + replace (base ++ c' :: c2 :: q) with ((base ++ [c']) ++ c2 :: q) by (rewrite <- app_assoc; reflexivity).
        apply IH; [reflexivity|discriminate].
  Qed.

  Lemma make_dirs_new t base rest q : lookup t q = None ->
    lookup (make_dirs t base rest) q = None \/ lookup (make_dirs t base rest) q = Some (MkNode false []).
  Proof.
    revert t base. induction rest as [|c r IH]; intros t base H; simpl; [left; exact H|].
    destruct (exists_dir t (base ++ [c])); [apply IH; exact H|].
    destruct (path_eqb (base ++ [c]) q) eqn:E.
    - right. apply make_dirs_keep. rewrite lookup_app, H, lookup_cons. cbn [fst snd]. rewrite E. reflexivity.
    - apply IH. rewrite lookup_app, H, lookup_cons. cbn [fst]. rewrite E. reflexivity.
  Qed.

  Lemma create_made t0 p f t : p <> [] -> g_create t0 p f = (t, None) ->
    lookup t p = Some (MkNode true []) /\ reachable t p.
  Proof.
    intros Hp H. unfold g_create in H.
    destruct (if f && exists_dir t0 p then g_delete t0 p else (t0, None)) as [t1 e].
    destruct e; [discriminate|]. destruct (exists_dir t1 p) eqn:E; [discriminate|]. inversion H; subst t. clear H.
    assert (Hr : forall q r, p = q ++ r -> q <> [] -> exists_dir (make_dirs t1 [] p) q = true)
      by (intros q r Eq Hq; exact (make_dirs_there t1 [] p q r Eq Hq)).
    split.
    - rewrite lookup_update_same.
      assert (Hn : lookup t1 p = None) by (unfold exists_dir in E; destruct (lookup t1 p); [discriminate|reflexivity]).
      pose proof (Hr p [] (eq_sym (app_nil_r p)) Hp) as Hx. apply exists_lookup in Hx. destruct Hx as [d Hd].
      destruct (make_dirs_new t1 [] p p Hn) as [H|H]; [congruence|]. rewrite H. reflexivity.
    - intros q r Eq Hq. apply exists_keys. rewrite keys_update. apply exists_keys. exact (Hr q r Eq Hq).
  Qed.

  Lemma reachable_same t u p : map fst u = map fst t -> reachable t p -> reachable u p.
  Proof. intros H Hr q r E Hq. rewrite (exists_same u t q H). exact (Hr q r E Hq). Qed.

  (* ---------------------------------------------------------------- sessions *)

  Lemma append_tree p t w rows : exists f g, fst (g_append p (t, w) rows) = update (update t p (on_files f)) p (on_files g).
  Proof.
    unfold g_append. destruct (w_open w) as [i|].
    - exists (fun d => d), (fun d => append_file d i rows). cbn [fst]. f_equal.
      unfold update, on_files. rewrite <- (map_id t) at 1. apply map_ext. intros [q [c d]]. cbn [fst snd n_cfg n_files].
      destruct (path_eqb q p); reflexivity.
    - eexists _, _. reflexivity.
  Qed.

  (* what a session does to the tree: it rewrites the files of [p] *)
  Definition rewrites (p : dpath) t u : Prop :=
    map fst u = map fst t /\ (forall q, q <> p -> lookup u q = lookup t q) /\
    option_map n_cfg (lookup u p) = option_map n_cfg (lookup t p).

  Lemma rewrites_refl p t : rewrites p t t.
  Proof. repeat split. Qed.

  Lemma rewrites_trans p t u v : rewrites p t u -> rewrites p u v -> rewrites p t v.
  Proof.
    intros (A1 & B1 & C1) (A2 & B2 & C2). split; [congruence|]. split; [|congruence].
    intros q Hq. rewrite (B2 q Hq). apply B1. exact Hq.
  Qed.

  Lemma rewrites_update p t f : rewrites p t (update t p (on_files f)).
  Proof.
    split; [apply keys_update|]. split; [intros q Hq; apply lookup_update_other; exact Hq|].
    rewrite lookup_update_same. destruct (lookup t p); reflexivity.
  Qed.

  Lemma rewrites_append p s rows : rewrites p (fst s) (fst (g_append p s rows)).
  Proof.
    destruct s as [t w]. destruct (append_tree p t w rows) as (f & g & ->). cbn [fst].
    eapply rewrites_trans; apply rewrites_update.
  Qed.

  Lemma rewrites_flush p s : rewrites p (fst s) (fst (g_flush p s)).
  Proof. unfold g_flush. cbn [fst]. destruct (w_buffer (snd s)); [apply rewrites_refl|apply rewrites_append]. Qed.

  Lemma rewrites_batch bs rpf p s b : rewrites p (fst s) (fst (g_write_batch bs rpf p s b)).
  Proof.
    destruct s as [t w]. unfold g_write_batch. destruct ((_ <? bs) && _); [apply rewrites_refl|].
    set (batch := match w_buffer w with [] => b | _ :: _ => concat (w_buffer w ++ [b]) end).
    pose proof (rewrites_append p (t, MkW (w_open w) [] (w_count w)) batch) as H.
    destruct (g_append p (t, MkW (w_open w) [] (w_count w)) batch) as [t2 w2]. cbn [fst] in H.
    destruct (rpf <=? _); [|exact H]. eapply rewrites_trans; [exact H|].
    apply (rewrites_flush p (t2, _)).
  Qed.

  Lemma rewrites_step bs rpf p s o : rewrites p (fst s) (fst (g_step bs rpf p s o)).
  Proof.
    destruct o as [r|b|r|]; cbn [g_step].
    - destruct r; [apply rewrites_refl|apply rewrites_batch].
    - apply rewrites_batch.
    - unfold g_write_table. pose proof (rewrites_flush p s) as H. destruct (g_flush p s) as [t w]. cbn [fst] in *.
      eapply rewrites_trans; [exact H|apply rewrites_update].
    - apply rewrites_flush.
  Qed.

  Lemma rewrites_session bs rpf t p ops : rewrites p t (g_session bs rpf t p ops).
  Proof.
    unfold g_session.
    assert (H : forall s, rewrites p (fst s) (fst (fold_left (g_step bs rpf p) ops s))).
    { induction ops as [|o ops IH]; intros s; [apply rewrites_refl|]. simpl.
      eapply rewrites_trans; [apply rewrites_step|apply IH]. }
    eapply rewrites_trans; [apply (H (t, w_init))|apply rewrites_flush].
  Qed.

  Lemma c119_tables t0 p f t bs rpf ops : p <> [] -> no_bracket p -> g_create t0 p f = (t, None) ->
    g_read (g_session bs rpf t p ops) p = file_tables (f_dir (file_flush (file_run bs rpf ops))).
  Proof.
    intros Hp Hb H. destruct (create_made t0 p f t Hp H) as [Hl Hr].
    apply (session_tables p (map fst t) Hp Hb (fun u Hu => reachable_same t u p Hu Hr) bs rpf t true ops eq_refl Hl).
  Qed.

  Lemma c119_rows t0 p f t bs rpf ops : p <> [] -> no_bracket p -> g_create t0 p f = (t, None) ->
    concat (g_read (g_session bs rpf t p ops) p) = written ops.
  Proof.
    intros Hp Hb H. rewrite (c119_tables t0 p f t bs rpf ops Hp Hb H). apply (file_order bs rpf ops). apply Permutation_refl.
  Qed.

  (* ---------------------------------------------------------------- delete *)

  Definition kept (fs : list (dpath * nat)) (q : dpath) (e : nat * list A) : bool :=
    negb (existsb (fun f => path_eqb (fst f) q && Nat.eqb (fst e) (snd f)) fs).

  Lemma unlink_all t fs q : lookup (fold_left unlink fs t) q = option_map (on_files (filter (kept fs q))) (lookup t q).
  Proof.
    revert t. induction fs as [|f fs IH]; intros t.
    - simpl. destruct (lookup t q) as [[c d]|]; [|reflexivity]. unfold on_files. cbn. f_equal. f_equal.
      symmetry. apply filter_all. intros e He. reflexivity.
    - simpl. rewrite IH. unfold unlink. rewrite lookup_update. destruct (path_eqb q (fst f)) eqn:E.
      + destruct (lookup t q) as [[c d]|]; [|reflexivity]. unfold on_files. cbn [option_map n_cfg n_files]. f_equal. f_equal.
        rewrite filter_filter. apply filter_ext. intros e. unfold kept. cbn [existsb].
        apply path_eqb_eq in E. subst q. rewrite path_eqb_refl. cbn [andb]. rewrite negb_orb. reflexivity.
      + destruct (lookup t q) as [[c d]|]; [|reflexivity]. unfold on_files. cbn [option_map n_cfg n_files]. f_equal. f_equal.
        apply filter_ext. intros e. unfold kept. cbn [existsb].
        rewrite path_eqb_neq; [reflexivity|]. intros H. subst q. rewrite path_eqb_refl in E. discriminate.
  Qed.

  Lemma unlink_keys t fs : map fst (fold_left unlink fs t) = map fst t.
  Proof. revert t. induction fs as [|f fs IH]; intros t; [reflexivity|]. simpl. rewrite IH. apply keys_update. Qed.

  Lemma dataset_dirs t p d i : ordinary p -> In (d, i) (dataset_files t p) -> d = p.
  Proof.
    intros Ho H. unfold dataset_files in H. destruct (exists_dir t p); [|destruct H].
    rewrite (glob_ordinary t p Ho) in H. simpl in H. rewrite app_nil_r in H. apply in_map_iff in H.
    destruct H as [e [E _]]. inversion E. reflexivity.
  Qed.

  Lemma delete_others t p q : ordinary p -> q <> p -> lookup (fst (g_delete t p)) q = lookup t q.
  Proof.
    intros Ho Hq. unfold g_delete. destruct (lookup t p) as [d|]; [|reflexivity].
    destruct (negb (n_cfg d)); [reflexivity|].
    assert (H : lookup (update (fold_left unlink (dataset_files t p) t) p (fun d => MkNode false (n_files d))) q = lookup t q).
    { rewrite (lookup_update_other _ _ _ _ Hq), unlink_all. destruct (lookup t q) as [[c l]|]; [|reflexivity].
      unfold on_files. cbn. f_equal. f_equal. apply filter_all. intros e _. unfold kept.
      destruct (existsb _ _) eqn:E; [|reflexivity]. apply existsb_exists in E. destruct E as [[d' i] [Hin E]].
      apply andb_true_iff in E. destruct E as [E _]. apply path_eqb_eq in E. cbn [fst] in E.
      rewrite (dataset_dirs t p d' i Ho Hin) in E. congruence. }
    set (t2 := update _ p _) in *.
    destruct (node_files t2 p), (children t2 p); cbn [fst]; try exact H.
    rewrite lookup_remove, (path_eqb_neq q p Hq). exact H.
  Qed.

  Lemma delete_self t p d : no_bracket p -> p <> [] -> reachable t p -> lookup t p = Some d -> n_cfg d = true ->
    (forall n, exists_dir t (p ++ [n]) = false) ->
    snd (g_delete t p) = None /\ lookup (fst (g_delete t p)) p = None.
  Proof.
    intros Hb Hp Hr Hl Hc Hn. unfold g_delete. rewrite Hl, Hc. cbn [negb].
    set (t1 := fold_left unlink (dataset_files t p) t). set (t2 := update t1 p (fun d => MkNode false (n_files d))).
    assert (Hf : node_files t2 p = []).
    { unfold node_files, t2. rewrite lookup_update_same. unfold t1. rewrite unlink_all, Hl. cbn [option_map on_files n_files n_cfg].
      apply filter_none. intros e He. unfold kept. rewrite negb_false_iff. apply existsb_exists.
      exists (p, fst e). split; [|cbn [fst snd]; rewrite path_eqb_refl, Nat.eqb_refl; reflexivity].
      unfold dataset_files. rewrite (Hr p [] (eq_sym (app_nil_r p)) Hp). apply in_flat_map. exists p.
      split; [apply glob_self; assumption|]. apply in_map_iff. exists e. split; [reflexivity|].
      unfold node_files. rewrite Hl. exact He. }
    assert (Hch : children t2 p = []).
    { destruct (children t2 p) as [|n l] eqn:E; [reflexivity|]. exfalso.
      assert (Hin : In n (children t2 p)) by (rewrite E; left; reflexivity).
      apply children_in in Hin. rewrite (exists_same t2 t) in Hin; [rewrite Hn in Hin; discriminate|].
      unfold t2, t1. rewrite keys_update. apply unlink_keys. }
    rewrite Hf, Hch. cbn [fst snd]. split; [reflexivity|]. rewrite lookup_remove, path_eqb_refl. reflexivity.
  Qed.

  Lemma c119_delete t0 p f t bs rpf ops : p <> [] -> no_bracket p -> g_create t0 p f = (t, None) ->
    (forall n, exists_dir t (p ++ [n]) = false) ->
    snd (g_delete (g_session bs rpf t p ops) p) = None /\ lookup (fst (g_delete (g_session bs rpf t p ops) p)) p = None.
  Proof.
    intros Hp Hb H Hn. destruct (create_made t0 p f t Hp H) as [Hl Hr].
    destruct (rewrites_session bs rpf t p ops) as (Hk & _ & Hc). rewrite Hl in Hc.
    destruct (lookup (g_session bs rpf t p ops) p) as [d|] eqn:E; [|discriminate Hc]. injection Hc as Hc.
    apply (delete_self _ p d Hb Hp (reachable_same t _ p Hk Hr) E Hc).
    intros n. rewrite (exists_same _ t _ Hk). apply Hn.
  Qed.

  Lemma create_others t p f q : ordinary p -> q <> p -> exists_dir t q = true -> lookup (fst (g_create t p f)) q = lookup t q.
  Proof.
    intros Ho Hq Hx. unfold g_create.
    destruct (if f && exists_dir t p then g_delete t p else (t, None)) as [t1 e] eqn:E.
    assert (H : lookup t1 q = lookup t q).
    { destruct (f && exists_dir t p); [|inversion E; reflexivity].
      rewrite <- (delete_others t p q Ho Hq), E. reflexivity. }
    destruct e; [exact H|]. destruct (exists_dir t1 p); [exact H|]. cbn [fst].
    rewrite (lookup_update_other _ _ _ _ Hq). apply exists_lookup in Hx. destruct Hx as [d Hd]. rewrite Hd in H |- *.
    apply make_dirs_keep. exact H.
  Qed.

  (* ---------------------------------------------------------------- sort_by *)

  Lemma sort_all srt t fs q : (forall f, In f fs -> fst f <> q) -> lookup (fold_left (sort_file srt) fs t) q = lookup t q.
  Proof.
    revert t. induction fs as [|f fs IH]; intros t H; [reflexivity|]. simpl. rewrite IH; [|intros g Hg; apply H; right; exact Hg].
    unfold sort_file. apply lookup_update_other. intros E. apply (H f (or_introl eq_refl)). symmetry. exact E.
  Qed.

  Lemma sort_others srt t p q : ordinary p -> q <> p -> lookup (g_sort_by srt t p) q = lookup t q.
  Proof.
    intros Ho Hq. apply sort_all. intros [d i] Hin E. cbn [fst] in E. subst d.
    apply Hq. exact (dataset_dirs t p q i Ho Hin).
  Qed.

  Lemma sort_own srt t p c (d1 d2 : dir A) : NoDup (map fst (d1 ++ d2)) ->
    lookup t p = Some (MkNode c (map (fun e => (fst e, srt (snd e))) d1 ++ d2)) ->
    lookup (fold_left (sort_file srt) (map (fun e => (p, fst e)) d2) t) p = Some (MkNode c (map (fun e => (fst e, srt (snd e))) (d1 ++ d2))).
  Proof.
    revert t d1. induction d2 as [|e d2 IH]; intros t d1 Hn Hl.
    - simpl. rewrite Hl, !app_nil_r. reflexivity.
    - simpl. replace (d1 ++ e :: d2) with ((d1 ++ [e]) ++ d2) in Hn |- * by (rewrite <- app_assoc; reflexivity).
      apply IH; [exact Hn|]. unfold sort_file. cbn [fst snd]. rewrite lookup_update_same, Hl. unfold on_files. cbn [option_map n_cfg n_files].
      f_equal. f_equal. rewrite map_app. simpl. rewrite Nat.eqb_refl. rewrite map_app. simpl. rewrite <- app_assoc. simpl.
      rewrite !map_app in Hn. simpl in Hn. rewrite <- app_assoc in Hn. simpl in Hn. apply NoDup_remove in Hn. destruct Hn as [_ Hn].
      f_equal; [|f_equal].
      + rewrite map_map. apply map_ext_in. intros x Hx. cbn [fst snd].
        destruct (Nat.eqb (fst x) (fst e)) eqn:E; [|reflexivity]. exfalso. apply Hn. apply in_or_app. left.
        apply Nat.eqb_eq in E. rewrite <- E. apply in_map. exact Hx.
      + rewrite <- (map_id d2) at 2. apply map_ext_in. intros x Hx.
        destruct (Nat.eqb (fst x) (fst e)) eqn:E; [|reflexivity]. exfalso. apply Hn. apply in_or_app. right.
        apply Nat.eqb_eq in E. rewrite <- E. apply in_map. exact Hx.
  Qed.

  Lemma idx_sorted_nodup (d : dir A) : StronglySorted idx_lt d -> NoDup (map fst d).
  Proof.
    induction 1 as [|e d Hs IH Hf]; simpl; constructor; [|exact IH].
    intros H. apply in_map_iff in H. destruct H as [x [E Hx]]. rewrite Forall_forall in Hf. specialize (Hf x Hx). unfold idx_lt in Hf. lia.
  Qed.

  Lemma idx_sorted_map (srt : list A -> list A) (d : dir A) : StronglySorted idx_lt d -> StronglySorted idx_lt (map (fun e => (fst e, srt (snd e))) d).
  Proof. induction 1 as [|e d Hs IH Hf]; simpl; constructor; [exact IH|]. rewrite Forall_map. exact Hf. Qed.

  Lemma session_node t0 p f t bs rpf ops : p <> [] -> no_bracket p -> g_create t0 p f = (t, None) ->
    exists c d, lookup (g_session bs rpf t p ops) p = Some (MkNode c d) /\ StronglySorted idx_lt d.
  Proof.
    intros Hp Hb H. destruct (create_made t0 p f t Hp H) as [Hl Hr].
    assert (H0 : follows p (map fst t) (t, w_init) file_init).
    { split; [reflexivity|]. exists true, []. cbn. repeat split; try assumption; constructor. }
    pose proof (follows_flush p (map fst t) Hp Hb (fun u Hu => reachable_same t u p Hu Hr) _ _
      (follows_run p (map fst t) Hp Hb (fun u Hu => reachable_same t u p Hu Hr) bs rpf ops _ _ H0)) as HF.
    destruct HF as (_ & c & d & Hl' & _ & Hs & _). exists c, d. split; assumption.
  Qed.

  Lemma c119_sort srt t0 p f t bs rpf ops : p <> [] -> ordinary p -> g_create t0 p f = (t, None) ->
    count_tables (g_session bs rpf t p ops) p = length (g_read (g_session bs rpf t p ops) p) /\
    g_read (g_sort_by srt (g_session bs rpf t p ops) p) p = map srt (g_read (g_session bs rpf t p ops) p).
  Proof.
    intros Hp Ho H. destruct (session_node t0 p f t bs rpf ops Hp (ordinary_bracket p Ho) H) as (c & d & Hl & Hs).
    set (u := g_session bs rpf t p ops) in *.
    assert (Hx : exists_dir u p = true) by (apply exists_lookup; exists (MkNode c d); exact Hl).
    assert (Hn : node_files u p = d) by (unfold node_files; rewrite Hl; reflexivity).
    assert (Hr : g_read u p = map snd d) by (unfold g_read; rewrite Hn; apply (file_tables_listing d d Hs (Permutation_refl d))).
    rewrite Hr. unfold count_tables, g_sort_by. rewrite (dataset_ordinary u p Ho Hx), Hn. split; [rewrite !map_length; reflexivity|].
    unfold g_read, node_files. rewrite (sort_own srt u p c [] d (idx_sorted_nodup d Hs) Hl). cbn [n_files app].
    rewrite (file_tables_listing _ _ (idx_sorted_map srt d Hs) (Permutation_refl _)). rewrite !map_map. reflexivity.
  Qed.
End Main.
