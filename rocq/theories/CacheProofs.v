From Verif Require Import Prelude CacheModel CacheSpec.

(* ------------------------------------------------------------------ *)
(** * Memory writer *)

Section Mem.
  Context {A : Type}.
  Implicit Types (s : mem_state A) (ops : list (wop A)).

  Lemma mem_step_perm bs s o :
    Permutation (m_table (mem_step bs s o) ++ concat (m_buffer (mem_step bs s o)))
                ((m_table s ++ concat (m_buffer s)) ++ op_rows o).
  Proof.
    assert (Hwb : forall b, Permutation
        (m_table (mem_write_batch bs s b) ++ concat (m_buffer (mem_write_batch bs s b)))
        ((m_table s ++ concat (m_buffer s)) ++ b)).
    { intros b. unfold mem_write_batch.
      destruct (_ <? bs); simpl.
      - rewrite concat_snoc, app_assoc. reflexivity.
      - destruct (m_buffer s) as [|x t] eqn:E; unfold mem_write_table; cbn [m_table m_buffer].
        + rewrite E. simpl. rewrite !app_nil_r. reflexivity.
        + rewrite concat_snoc. cbn [concat]. rewrite app_nil_r, <- !app_assoc. reflexivity. }
    destruct o as [r|b|t|]; cbn [mem_step op_rows].
    - unfold mem_write_rows. destruct r as [|x r]; [rewrite app_nil_r; reflexivity|apply Hwb].
    - apply Hwb.
    - unfold mem_write_table; simpl. rewrite <- !app_assoc. apply Permutation_app_head.
      apply Permutation_app_comm.
    - unfold mem_flush. rewrite app_nil_r. destruct (m_buffer s) as [|x t] eqn:E; cbn [m_table m_buffer].
      + rewrite E. reflexivity.
      + simpl. rewrite !app_nil_r. reflexivity.
  Qed.

  Lemma mem_run_snoc bs ops o : mem_run bs (ops ++ [o]) = mem_step bs (mem_run bs ops) o.
  Proof. unfold mem_run. rewrite fold_left_app. reflexivity. Qed.

  Lemma written_snoc ops o : written (ops ++ [o]) = written ops ++ op_rows o.
  Proof. unfold written. rewrite map_app, concat_app. simpl. rewrite app_nil_r. reflexivity. Qed.

  Lemma mem_read_eq s : mem_read s = m_table s ++ concat (m_buffer s).
  Proof.
    unfold mem_read, mem_flush. destruct (m_buffer s) eqn:E; simpl; [|reflexivity].
    rewrite app_nil_r. reflexivity.
  Qed.

  Lemma mem_perm bs ops : Permutation (mem_read (mem_run bs ops)) (written ops).
  Proof.
    rewrite mem_read_eq.
    induction ops as [|o ops IH] using rev_ind; [reflexivity|].
    rewrite mem_run_snoc, written_snoc, mem_step_perm, IH. reflexivity.
  Qed.

  (* a history is "table-safe" if whenever a table is written the buffer is
     empty; sufficient and history-level: a Flush (or nothing but tables)
     precedes each table. *)
  Lemma mem_step_order bs s o :
    (is_table o = true -> m_buffer s = []) ->
    m_table (mem_step bs s o) ++ concat (m_buffer (mem_step bs s o))
    = (m_table s ++ concat (m_buffer s)) ++ op_rows o.
  Proof.
    intros Hsafe.
    assert (Hwb : forall b,
        m_table (mem_write_batch bs s b) ++ concat (m_buffer (mem_write_batch bs s b))
        = (m_table s ++ concat (m_buffer s)) ++ b).
    { intros b. unfold mem_write_batch.
      destruct (_ <? bs); simpl.
      - rewrite concat_snoc, app_assoc. reflexivity.
      - destruct (m_buffer s) as [|x t] eqn:E; unfold mem_write_table; cbn [m_table m_buffer].
        + rewrite E. simpl. rewrite !app_nil_r. reflexivity.
        + rewrite concat_snoc. cbn [concat]. rewrite app_nil_r, <- !app_assoc. reflexivity. }
    destruct o as [r|b|t|]; cbn [mem_step op_rows].
    - unfold mem_write_rows. destruct r as [|x r]; [rewrite app_nil_r; reflexivity|apply Hwb].
    - apply Hwb.
    - unfold mem_write_table; simpl. rewrite (Hsafe eq_refl). simpl. rewrite !app_nil_r. reflexivity.
    - unfold mem_flush. rewrite app_nil_r. destruct (m_buffer s) as [|x t] eqn:E; cbn [m_table m_buffer].
      + rewrite E. reflexivity.
      + simpl. rewrite !app_nil_r. reflexivity.
  Qed.

  Definition mem_safe bs ops : Prop :=
    forall p t q, ops = p ++ WriteTable t :: q -> m_buffer (mem_run bs p) = [].

  Lemma mem_order bs ops : mem_safe bs ops -> mem_read (mem_run bs ops) = written ops.
  Proof.
    rewrite mem_read_eq.
    induction ops as [|o ops IH] using rev_ind; intros Hs; [reflexivity|].
    rewrite mem_run_snoc, written_snoc, mem_step_order.
    - rewrite IH; [reflexivity|].
      intros p t q E. apply (Hs p t (q ++ [o])). rewrite E, <- app_assoc. reflexivity.
    - intros Ht. destruct o; try discriminate. apply (Hs ops table []). reflexivity.
  Qed.

  (* two history-level sufficient conditions *)
  Lemma mem_safe_no_table bs ops : forallb (fun o => negb (is_table o)) ops = true -> mem_safe bs ops.
  Proof.
    intros H p t q ->. rewrite forallb_app in H. simpl in H.
    rewrite andb_false_r in H. discriminate.
  Qed.

  Lemma mem_buffer_flush s : m_buffer (mem_flush s) = [].
  Proof. unfold mem_flush. destruct (m_buffer s) eqn:E; simpl; auto. Qed.

  Lemma mem_guarded_buffer bs ops s ok :
    tables_guarded ok ops = true -> (ok = true -> m_buffer s = []) ->
    forall p t q, ops = p ++ WriteTable t :: q -> m_buffer (fold_left (mem_step bs) p s) = [].
  Proof.
    revert s ok. induction ops as [|o ops IH]; intros s ok Hg Hok p t q E.
    - destruct p; discriminate.
    - destruct p as [|o' p].
      + simpl in E. injection E as -> ->. simpl in *. apply andb_true_iff in Hg. apply Hok. tauto.
      + simpl in E. injection E as <- E. simpl fold_left.
        destruct o as [r|b|tt|]; cbn [tables_guarded] in Hg.
        * destruct r as [|a r].
          -- apply (IH s ok) with (t := t) (q := q); auto.
          -- apply (IH _ false) with (t := t) (q := q); auto. discriminate.
        * apply (IH _ false) with (t := t) (q := q); auto. discriminate.
        * apply andb_true_iff in Hg. destruct Hg as [Ho Hg].
          apply (IH _ true) with (t := t) (q := q); auto.
        * apply (IH _ true) with (t := t) (q := q); auto. intros _. apply mem_buffer_flush.
  Qed.

  Lemma mem_safe_guarded bs ops : tables_guarded true ops = true -> mem_safe bs ops.
  Proof.
    intros H p t q E. unfold mem_run. eapply mem_guarded_buffer; eauto.
  Qed.

  Lemma mem_buffer_bound bs ops :
    list_sum_nat (map (@length A) (m_buffer (mem_run bs ops))) <= bs - 1.
  Proof.
    induction ops as [|o ops IH] using rev_ind; [simpl; lia|].
    rewrite mem_run_snoc. set (s := mem_run bs ops) in *.
    assert (Hwb : forall b, list_sum_nat (map (@length A) (m_buffer (mem_write_batch bs s b))) <= bs - 1).
    { intros b. unfold mem_write_batch. destruct (_ <? bs) eqn:E.
      - simpl. rewrite map_app, list_sum_nat_app. simpl. lia.
      - destruct (m_buffer s) eqn:Eb; unfold mem_write_table; cbn [m_buffer]; [rewrite Eb|]; simpl; lia. }
    destruct o as [r|b|t|]; cbn [mem_step].
    - unfold mem_write_rows. destruct r; [exact IH|apply Hwb].
    - apply Hwb.
    - exact IH.
    - rewrite mem_buffer_flush. simpl; lia.
  Qed.
End Mem.

(* ------------------------------------------------------------------ *)
(** * File writer *)

Section File.
  Context {A : Type}.
  Implicit Types (s : file_state A) (ops : list (wop A)) (d : dir A).

  Lemma file_run_snoc bs rpf ops o :
    file_run bs rpf (ops ++ [o]) = file_step bs rpf (file_run bs rpf ops) o.
  Proof. unfold file_run. rewrite fold_left_app. reflexivity. Qed.

  Lemma fold_max_ge l i : In i l -> i <= fold_right Nat.max 0 l.
  Proof. induction l as [|x t IH]; simpl; [tauto|]. intros [->|H]; [lia|]. specialize (IH H). lia. Qed.

  Lemma next_index_gt d e : In e d -> fst e < next_index d.
  Proof.
    intros H. unfold next_index. destruct d as [|x t]; [destruct H|].
    pose proof (fold_max_ge (map fst (x :: t)) (fst e) (in_map fst _ _ H)). lia.
  Qed.

  Definition idx_lt (x y : nat * list A) : Prop := fst x < fst y.

  Lemma idx_sorted_snoc d c : StronglySorted idx_lt d -> StronglySorted idx_lt (d ++ [(next_index d, c)]).
  Proof.
    intros H. apply StronglySorted_app. split; [exact H|]. split; [repeat constructor|].
    intros x y Hx [<-|[]]. unfold idx_lt; simpl. apply next_index_gt; exact Hx.
  Qed.

  Lemma append_file_last d i c rows :
    StronglySorted idx_lt (d ++ [(i, c)]) ->
    append_file (d ++ [(i, c)]) i rows = d ++ [(i, c ++ rows)].
  Proof.
    intros H. apply StronglySorted_app in H. destruct H as (_ & _ & H).
    unfold append_file. rewrite map_app. simpl. rewrite Nat.eqb_refl. f_equal.
    rewrite <- (map_id d) at 2. apply map_ext_in. intros e He.
    specialize (H e (i, c) He (or_introl eq_refl)). unfold idx_lt in H; simpl in H.
    destruct (Nat.eqb_spec (fst e) i); [lia|reflexivity].
  Qed.

  (* The writer, when open, appends to the last file, whose length is the running count. *)
  Definition writer_ok s : Prop :=
    match f_writer s with
    | None => f_count s = 0
    | Some i => exists d c, f_dir s = d ++ [(i, c)] /\ length c = f_count s
    end.

  (* ghost: the list of batches stored in each file, oldest file first *)
  Definition ghost (gs : list (list (list A))) s : Prop :=
    StronglySorted idx_lt (f_dir s) /\ map snd (f_dir s) = map (@concat A) gs /\ writer_ok s.

  Lemma ghost_append gs s rows (bt : list (list A)) :
    ghost gs s -> rows = concat bt ->
    exists gs', ghost gs' (MkFile (f_dir (file_append s rows)) (f_writer (file_append s rows))
                             (f_buffer (file_append s rows)) (f_count s + length rows))
      /\ concat gs' = concat gs ++ bt
      /\ f_buffer (file_append s rows) = f_buffer s
      /\ f_count (file_append s rows) = f_count s
      /\ exists d i c, f_dir (file_append s rows) = d ++ [(i, c ++ rows)]
           /\ length c = f_count s
           /\ (f_dir s = d ++ [(i, c)] /\ f_writer s = Some i \/ f_dir s = d /\ c = [] /\ f_writer s = None)
           /\ f_writer (file_append s rows) = Some i.
  Proof.
    intros (Hs & Hm & Hw) ->. unfold file_append, get_writer. unfold writer_ok in Hw.
    destruct (f_writer s) as [i|] eqn:E.
    - destruct Hw as (d & c & Hd & Hc). rewrite Hd in Hs, Hm.
      rewrite map_app in Hm. cbn [map snd] in Hm.
      assert (Hg : exists gs0 g, gs = gs0 ++ [g]).
      { destruct gs as [|g0 gs1] using rev_ind; [|eauto].
        symmetry in Hm. simpl in Hm. destruct (map snd d); discriminate. }
      destruct Hg as (gs0 & g & ->). rewrite map_app in Hm. cbn [map] in Hm.
      apply app_inj_tail in Hm. destruct Hm as [Hm Hg].
      exists (gs0 ++ [g ++ bt]). cbn [f_dir f_writer f_buffer f_count]. rewrite Hd.
      rewrite append_file_last by exact Hs.
      repeat split.
      + cbn [f_dir]. apply StronglySorted_app in Hs. apply StronglySorted_app.
        destruct Hs as (H1 & _ & H3). repeat split; auto; [repeat constructor|].
        intros x y Hx [<-|[]]. apply (H3 x (i, c) Hx (or_introl eq_refl)).
      + cbn [f_dir]. rewrite !map_app. simpl. rewrite Hm, Hg, concat_app. reflexivity.
      + unfold writer_ok. cbn [f_writer f_dir f_count]. rewrite E.
        exists d, (c ++ concat bt). split; [reflexivity|]. rewrite app_length. lia.
      + rewrite !concat_app. simpl. rewrite !app_nil_r, app_assoc. reflexivity.
      + exists d, i, c. split; [reflexivity|]. split; [exact Hc|]. split; [left; split; [reflexivity|reflexivity]|exact E].
    - cbn [f_dir f_writer f_buffer f_count].
      pose proof (idx_sorted_snoc (f_dir s) [] Hs) as Hs'.
      rewrite append_file_last by exact Hs'. simpl app at 2.
      exists (gs ++ [bt]). repeat split.
      + cbn [f_dir]. apply idx_sorted_snoc; exact Hs.
      + cbn [f_dir]. rewrite !map_app. simpl. rewrite Hm. reflexivity.
      + unfold writer_ok. cbn [f_writer f_dir f_count].
        exists (f_dir s), (concat bt). split; [reflexivity|]. lia.
      + rewrite concat_app. simpl. rewrite app_nil_r. reflexivity.
      + exists (f_dir s), (next_index (f_dir s)), []. simpl. repeat split; auto.
  Qed.

  Lemma ghost_count_indep gs d w b1 b2 n :
    ghost gs (MkFile d w b1 n) -> ghost gs (MkFile d w b2 n).
  Proof. intros (H1 & H2 & H3). repeat split; auto. Qed.

  Lemma ghost_flush gs s :
    ghost gs s ->
    exists gs', ghost gs' (file_flush s) /\ concat gs' = concat gs ++ f_buffer s
      /\ f_buffer (file_flush s) = [] /\ f_writer (file_flush s) = None.
  Proof.
    intros H. unfold file_flush. destruct (f_buffer s) as [|b t] eqn:E.
    - exists gs. destruct H as (H1 & H2 & H3). repeat split; auto. rewrite app_nil_r; reflexivity.
    - destruct (ghost_append gs s (concat (b :: t)) (b :: t) H eq_refl)
        as (gs' & (G1 & G2 & G3) & Hc & _).
      exists gs'. repeat split; auto.
  Qed.

  Definition op_batches (o : wop A) : list (list A) :=
    match o with
    | WriteRows [] => []
    | WriteRows r => [r]
    | WriteBatch b => [b]
    | WriteTable t => [t]
    | Flush => []
    end.

  Lemma ghost_write_batch bs rpf gs s b :
    ghost gs s ->
    exists gs', ghost gs' (file_write_batch bs rpf s b)
      /\ concat gs' ++ f_buffer (file_write_batch bs rpf s b) = (concat gs ++ f_buffer s) ++ [b].
  Proof.
    intros H. unfold file_write_batch.
    destruct ((_ <? bs) && (f_count s <? rpf)) eqn:E.
    - exists gs. split; [|cbn [f_buffer]; rewrite app_assoc; reflexivity].
      destruct s; eapply ghost_count_indep; exact H.
    - set (batch := match f_buffer s with [] => b | _ :: _ => concat (f_buffer s ++ [b]) end).
      assert (Hb : batch = concat (f_buffer s ++ [b])).
      { unfold batch. destruct (f_buffer s); [simpl; rewrite app_nil_r; reflexivity|reflexivity]. }
      assert (Hsz : length batch = length b + list_sum_nat (map (@length A) (f_buffer s))).
      { rewrite Hb, concat_snoc, app_length, length_concat. lia. }
      rewrite <- Hsz. clear Hsz.
      set (s1 := MkFile (f_dir s) (f_writer s) [] (f_count s)).
      assert (H1 : ghost gs s1) by (destruct s; eapply ghost_count_indep; exact H).
      destruct (ghost_append gs s1 batch (f_buffer s ++ [b]) H1 Hb)
        as (gs' & HG & Hc & Hbuf & Hcnt & _).
      cbv zeta. set (s2 := file_append s1 batch) in *. cbn [f_dir f_writer f_buffer f_count].
      rewrite Hcnt.
      assert (Hc' : concat gs' = (concat gs ++ f_buffer s) ++ [b]) by (rewrite Hc, app_assoc; reflexivity).
      destruct (rpf <=? f_count s1 + length batch).
      + destruct (ghost_flush gs' _ HG) as (gs'' & HG' & Hc'' & Hbuf' & _).
        cbn [f_buffer] in Hc''. rewrite Hbuf in Hc''. cbn [f_buffer s1] in Hc''.
        exists gs''. split; [exact HG'|]. rewrite Hbuf', app_nil_r, Hc'', app_nil_r. exact Hc'.
      + exists gs'. split; [exact HG|]. cbn [f_buffer]. rewrite Hbuf. cbn [s1 f_buffer].
        rewrite app_nil_r. exact Hc'.
  Qed.

  Lemma ghost_step bs rpf gs s o :
    ghost gs s ->
    exists gs', ghost gs' (file_step bs rpf s o)
      /\ concat gs' ++ f_buffer (file_step bs rpf s o) = (concat gs ++ f_buffer s) ++ op_batches o.
  Proof.
    intros H. destruct o as [r|b|t|]; cbn [file_step op_batches].
    - unfold file_write_rows. destruct r as [|x r].
      + exists gs. rewrite app_nil_r. auto.
      + apply ghost_write_batch; exact H.
    - apply ghost_write_batch; exact H.
    - destruct (ghost_flush gs s H) as (gs' & (G1 & G2 & G3) & Hc & Hb & Hw).
      unfold file_write_table.
      exists (gs' ++ [[t]]). split.
      + split; [|split].
        * cbn [f_dir]. apply idx_sorted_snoc; exact G1.
        * cbn [f_dir]. rewrite !map_app, G2. simpl. rewrite app_nil_r. reflexivity.
        * unfold writer_ok in *. cbn [f_writer f_count]. rewrite Hw in *. exact G3.
      + cbn [f_buffer]. rewrite Hb, app_nil_r, concat_app, Hc. simpl. reflexivity.
    - destruct (ghost_flush gs s H) as (gs' & HG & Hc & Hb & Hw).
      exists gs'. split; [exact HG|]. rewrite Hb, !app_nil_r. exact Hc.
  Qed.

  Definition batches ops : list (list A) := concat (map op_batches ops).

  Lemma batches_rows ops : concat (batches ops) = written ops.
  Proof.
    unfold batches, written. induction ops as [|o ops IH]; simpl; [reflexivity|].
    rewrite concat_app, IH. f_equal.
    destruct o as [[|x r]|b|t|]; simpl; rewrite ?app_nil_r; reflexivity.
  Qed.

  Lemma ghost_run bs rpf ops :
    exists gs, ghost gs (file_run bs rpf ops)
      /\ concat gs ++ f_buffer (file_run bs rpf ops) = batches ops.
  Proof.
    induction ops as [|o ops IH] using rev_ind.
    - exists []. repeat split; constructor.
    - destruct IH as (gs & HG & Hc). rewrite file_run_snoc.
      destruct (ghost_step bs rpf gs (file_run bs rpf ops) o HG) as (gs' & HG' & Hc').
      exists gs'. split; [exact HG'|].
      rewrite Hc', Hc. unfold batches. rewrite map_app, concat_app. simpl.
      rewrite app_nil_r. reflexivity.
  Qed.

  Lemma ghost_final bs rpf ops :
    exists gs, ghost gs (file_flush (file_run bs rpf ops)) /\ concat gs = batches ops.
  Proof.
    destruct (ghost_run bs rpf ops) as (gs & HG & Hc).
    destruct (ghost_flush _ _ HG) as (gs' & HG' & Hc' & _ & _).
    exists gs'. split; [exact HG'|]. rewrite Hc'. exact Hc.
  Qed.

  (* sorting any listing of a directory with distinct indices *)
  Lemma frag_leb_total (x y : nat * list A) : frag_leb x y = true \/ frag_leb y x = true.
  Proof. unfold frag_leb. lia. Qed.
  Lemma frag_leb_trans (x y z : nat * list A) :
    frag_leb x y = true -> frag_leb y z = true -> frag_leb x z = true.
  Proof. unfold frag_leb. lia. Qed.

  Lemma idx_sorted_leP d : StronglySorted idx_lt d -> StronglySorted (leP frag_leb) d.
  Proof.
    induction 1 as [|a t Hs IH Hf]; constructor; auto.
    eapply Forall_impl; [|exact Hf]. intros b Hb. unfold leP, frag_leb, idx_lt in *. lia.
  Qed.

  Lemma sorted_perm_unique d l1 l2 :
    StronglySorted idx_lt d -> Permutation l1 d -> Permutation l2 d ->
    StronglySorted (leP frag_leb) l1 -> StronglySorted (leP frag_leb) l2 -> l1 = l2.
  Proof.
    intros Hd P1 P2 S1 S2.
    assert (Hinj : forall x y, In x d -> In y d -> fst x = fst y -> x = y).
    { clear -Hd. induction Hd as [|a t Hs IH Hf]; [intros ? ? []|].
      rewrite Forall_forall in Hf. intros x y [->|Hx] [->|Hy] E; auto.
      - specialize (Hf y Hy). unfold idx_lt in Hf. lia.
      - specialize (Hf x Hx). unfold idx_lt in Hf. lia. }
    assert (P : Permutation l1 l2) by (rewrite P1, P2; reflexivity).
    assert (Hin : forall x y, In x l1 -> In y l1 -> fst x = fst y -> x = y).
    { intros x y Hx Hy E. apply Hinj; [eapply Permutation_in; [exact P1|exact Hx]|eapply Permutation_in; [exact P1|exact Hy]|exact E]. }
    clear P1 P2 Hinj Hd d. revert l2 P S2.
    induction S1 as [|a t Hs IH Hf]; intros l2 P S2.
    - apply Permutation_nil in P. auto.
    - destruct l2 as [|b u]; [symmetry in P; apply Permutation_nil in P; discriminate|].
      inversion S2 as [|? ? S2' Hf2]; subst. rewrite Forall_forall in Hf, Hf2.
      assert (E : a = b).
      { assert (Hb : In b (a :: t)) by (eapply Permutation_in; [symmetry; exact P|left; reflexivity]).
        assert (Ha : In a (b :: u)) by (eapply Permutation_in; [exact P|left; reflexivity]).
        apply Hin; [left; reflexivity|exact Hb|].
        destruct Hb as [->|Hb]; [reflexivity|]. destruct Ha as [->|Ha]; [reflexivity|].
        specialize (Hf b Hb). specialize (Hf2 a Ha). unfold leP, frag_leb in *. lia. }
      subst b. apply Permutation_cons_inv in P. f_equal. apply IH; auto.
      intros x y Hx Hy. apply Hin; right; assumption.
  Qed.

  Lemma file_tables_listing d listing :
    StronglySorted idx_lt d -> Permutation listing d -> file_tables listing = map snd d.
  Proof.
    intros Hd P. unfold file_tables. f_equal.
    apply (sorted_perm_unique d); auto.
    - rewrite <- P. symmetry. apply isort_perm.
    - apply isort_sorted; [apply frag_leb_total|apply frag_leb_trans].
    - apply idx_sorted_leP; exact Hd.
  Qed.

  Lemma read_tables bs rpf ops listing :
    lists_files bs rpf ops listing ->
    file_tables listing = map snd (f_dir (file_flush (file_run bs rpf ops))).
  Proof.
    intros P. destruct (ghost_final bs rpf ops) as (gs & (Hs & _) & _).
    apply file_tables_listing; assumption.
  Qed.

  Lemma read_batches bs rpf ops listing :
    lists_files bs rpf ops listing ->
    exists gs, file_tables listing = map (@concat A) gs /\ concat gs = batches ops.
  Proof.
    intros P. rewrite (read_tables _ _ _ _ P).
    destruct (ghost_final bs rpf ops) as (gs & (Hs & Hm & _) & Hc).
    exists gs. auto.
  Qed.

  Lemma concat_map_concat (gs : list (list (list A))) : concat (map (@concat A) gs) = concat (concat gs).
  Proof. induction gs as [|g t IH]; simpl; [reflexivity|]. rewrite concat_app, IH. reflexivity. Qed.

  Lemma file_order bs rpf ops listing :
    lists_files bs rpf ops listing -> concat (file_tables listing) = written ops.
  Proof.
    intros P. destruct (read_batches _ _ _ _ P) as (gs & -> & Hc).
    rewrite concat_map_concat, Hc. apply batches_rows.
  Qed.

  (* position of one element of [concat gs] *)
  Lemma concat_position {B} (gs : list (list B)) l1 x l2 :
    concat gs = l1 ++ x :: l2 ->
    exists g1 a b g2, gs = g1 ++ (a ++ x :: b) :: g2 /\ l1 = concat g1 ++ a /\ l2 = b ++ concat g2.
  Proof.
    revert l1. induction gs as [|g t IH]; intros l1 E.
    - destruct l1; discriminate.
    - simpl in E.
      destruct (le_lt_dec (length g) (length l1)) as [Hle|Hlt].
      + assert (El : l1 = g ++ skipn (length g) l1).
        { rewrite <- (firstn_skipn (length g) l1) at 1. f_equal.
          assert (F : firstn (length g) (g ++ concat t) = firstn (length g) (l1 ++ x :: l2)) by (rewrite E; reflexivity).
          rewrite !firstn_app in F. rewrite firstn_all, Nat.sub_diag in F. simpl in F.
          replace (length g - length l1) with 0 in F by lia. simpl in F.
          rewrite !app_nil_r in F. auto. }
        rewrite El in E. rewrite <- app_assoc in E. apply app_inv_head in E.
        destruct (IH _ E) as (g1 & a & b & g2 & -> & E1 & ->).
        exists (g :: g1), a, b, g2. split; [reflexivity|]. split; [|reflexivity].
        rewrite El, E1. simpl. rewrite app_assoc. reflexivity.
      + assert (El : g = l1 ++ skipn (length l1) g).
        { rewrite <- (firstn_skipn (length l1) g) at 1. f_equal.
          assert (F : firstn (length l1) (g ++ concat t) = firstn (length l1) (l1 ++ x :: l2)) by (rewrite E; reflexivity).
          rewrite !firstn_app in F. rewrite firstn_all, Nat.sub_diag in F. simpl in F.
          replace (length l1 - length g) with 0 in F by lia. simpl in F.
          rewrite !app_nil_r in F. auto. }
        destruct (skipn (length l1) g) as [|y b] eqn:Esk.
        { rewrite app_nil_r in El. rewrite El in Hlt. lia. }
        rewrite El in E. rewrite <- app_assoc in E. apply app_inv_head in E.
        simpl in E. injection E as -> E.
        exists [], l1, b, t. simpl. rewrite El. auto.
  Qed.

  Lemma batches_app o1 o2 : batches (o1 ++ o2) = batches o1 ++ batches o2.
  Proof. unfold batches. rewrite map_app, concat_app. reflexivity. Qed.

  Lemma block_in_one_file bs rpf ops1 o ops2 listing w :
    op_batches o = [w] ->
    lists_files bs rpf (ops1 ++ o :: ops2) listing ->
    exists fs1 pre post fs2,
      file_tables listing = fs1 ++ (pre ++ w ++ post) :: fs2
      /\ concat fs1 ++ pre = written ops1 /\ post ++ concat fs2 = written ops2.
  Proof.
    intros Ho P. destruct (read_batches _ _ _ _ P) as (gs & Ht & Hc).
    rewrite batches_app in Hc. unfold batches at 2 in Hc. simpl in Hc. rewrite Ho in Hc.
    simpl in Hc. destruct (concat_position gs _ _ _ Hc) as (g1 & a & b & g2 & -> & E1 & E2).
    exists (map (@concat A) g1), (concat a), (concat b), (map (@concat A) g2).
    rewrite Ht, map_app. simpl. rewrite concat_app. simpl. split; [reflexivity|].
    rewrite !concat_map_concat. rewrite <- !concat_app.
    split.
    - rewrite <- E1. apply batches_rows.
    - fold (batches ops2) in E2. rewrite <- E2. apply batches_rows.
  Qed.

  (* ---------------- closed files are never modified ---------------- *)

  Definition frozen d s : Prop :=
    exists d', f_dir s = d ++ d' /\ (forall i, f_writer s = Some i -> d' <> []).

  Lemma frozen_append gs d s rows :
    ghost gs s -> frozen d s -> frozen d (file_append s rows).
  Proof.
    intros HG (d' & Hd & Hw).
    destruct (ghost_append gs s rows [rows] HG) as (gs' & _ & _ & _ & _ & dd & i & c & Hdir & _ & Hcase & Hw').
    { simpl. rewrite app_nil_r. reflexivity. }
    unfold frozen. rewrite Hdir. destruct Hcase as [[Hold HwS]|[Hold [Hc HwN]]].
    - specialize (Hw _ HwS). destruct (exists_last Hw) as (d'' & e & ->).
      rewrite Hd, app_assoc in Hold. apply app_inj_tail in Hold. destruct Hold as [<- _].
      exists (d'' ++ [(i, c ++ rows)]). rewrite app_assoc. split; [reflexivity|].
      intros _ _ F. destruct d''; discriminate.
    - subst dd. exists (d' ++ [(i, c ++ rows)]). rewrite Hd, app_assoc. split; [reflexivity|].
      intros _ _ F. destruct d'; discriminate.
  Qed.

  Lemma frozen_flush gs d s : ghost gs s -> frozen d s -> frozen d (file_flush s).
  Proof.
    intros HG HF. unfold file_flush. destruct (f_buffer s) as [|b t].
    - destruct HF as (d' & Hd & _). exists d'. split; [exact Hd|]. discriminate.
    - destruct (frozen_append gs d s (concat (b :: t)) HG HF) as (d' & Hd & _).
      exists d'. split; [exact Hd|]. discriminate.
  Qed.

  Lemma frozen_step bs rpf gs d s o : ghost gs s -> frozen d s -> frozen d (file_step bs rpf s o).
  Proof.
    intros HG HF.
    assert (Hwb : forall b, frozen d (file_write_batch bs rpf s b)).
    { intros b. unfold file_write_batch.
      destruct ((_ <? bs) && (f_count s <? rpf)) eqn:E.
      - exact HF.
      - set (batch := match f_buffer s with [] => b | _ :: _ => concat (f_buffer s ++ [b]) end).
        set (s1 := MkFile (f_dir s) (f_writer s) [] (f_count s)).
        assert (H1 : ghost gs s1) by (destruct s; eapply ghost_count_indep; exact HG).
        assert (HF1 : frozen d (file_append s1 batch)) by (eapply frozen_append; eauto).
        destruct (ghost_append gs s1 batch [batch] H1) as (gs' & HG' & _ & Hbuf & Hcnt & _).
        { simpl. rewrite app_nil_r; reflexivity. }
        cbv zeta. cbn [f_dir f_writer f_buffer f_count].
        assert (Hsz : length batch = length b + list_sum_nat (map (@length A) (f_buffer s))).
        { unfold batch. destruct (f_buffer s) as [|x t]; [simpl; lia|].
          rewrite concat_snoc, app_length, length_concat. lia. }
        rewrite <- Hsz, Hcnt.
        destruct (rpf <=? f_count s1 + length batch).
        + eapply frozen_flush; [exact HG'|exact HF1].
        + exact HF1. }
    destruct o as [r|b|t|]; cbn [file_step].
    - unfold file_write_rows. destruct r; auto.
    - apply Hwb.
    - unfold file_write_table. destruct (frozen_flush gs d s HG HF) as (d' & Hd & _).
      exists (d' ++ [(next_index (f_dir (file_flush s)), t)]). cbn [f_dir f_writer].
      rewrite Hd, app_assoc. split; [reflexivity|]. intros _ _ F. destruct d'; discriminate.
    - eapply frozen_flush; eauto.
  Qed.

  Lemma frozen_run bs rpf gs d s ops :
    ghost gs s -> frozen d s -> frozen d (file_flush (fold_left (file_step bs rpf) ops s)).
  Proof.
    revert gs s. induction ops as [|o ops IH]; intros gs s HG HF; simpl.
    - eapply frozen_flush; eauto.
    - destruct (ghost_step bs rpf gs s o HG) as (gs' & HG' & _).
      apply (IH gs'); auto. eapply frozen_step; eauto.
  Qed.

  Lemma table_own_file bs rpf ops1 t ops2 listing :
    lists_files bs rpf (ops1 ++ WriteTable t :: ops2) listing ->
    exists fs1 fs2, file_tables listing = fs1 ++ t :: fs2
      /\ concat fs1 = written ops1 /\ concat fs2 = written ops2.
  Proof.
    intros P. pose proof (file_order _ _ _ _ P) as Hall.
    rewrite (read_tables _ _ _ _ P) in *.
    unfold file_run in *. rewrite fold_left_app in *. cbn [fold_left file_step] in *.
    fold (file_run bs rpf ops1) in *.
    destruct (ghost_run bs rpf ops1) as (gs & HG & Hc).
    destruct (ghost_flush gs _ HG) as (gs1 & HG1 & Hc1 & Hb1 & Hw1).
    destruct (ghost_step bs rpf gs _ (WriteTable t) HG) as (gs2 & HG2 & Hc2).
    cbn [file_step] in *.
    set (s2 := file_write_table (file_run bs rpf ops1) t) in *.
    assert (Hfz : frozen (f_dir s2) s2).
    { exists []. rewrite app_nil_r. split; [reflexivity|].
      unfold s2, file_write_table. cbn [f_writer]. rewrite Hw1. discriminate. }
    destruct (frozen_run bs rpf gs2 _ s2 ops2 HG2 Hfz) as (d' & Hd & _).
    rewrite Hd in Hall |- *. unfold s2, file_write_table in Hall |- *. cbn [f_dir] in Hall |- *.
    rewrite !map_app in Hall |- *. cbn [map snd] in Hall |- *.
    destruct HG1 as (_ & Hm1 & _).
    assert (E1 : concat (map snd (f_dir (file_flush (file_run bs rpf ops1)))) = written ops1).
    { rewrite Hm1, concat_map_concat, Hc1, Hc. apply batches_rows. }
    exists (map snd (f_dir (file_flush (file_run bs rpf ops1)))), (map snd d').
    rewrite <- app_assoc. split; [reflexivity|]. split; [exact E1|].
    rewrite !concat_app in Hall. cbn [concat] in Hall. rewrite app_nil_r in Hall.
    unfold written in Hall. rewrite map_app, concat_app in Hall. cbn [map concat op_rows] in Hall.
    rewrite E1, <- app_assoc in Hall. apply app_inv_head in Hall. apply app_inv_head in Hall. exact Hall.
  Qed.
End File.
