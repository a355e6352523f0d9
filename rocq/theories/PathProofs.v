(* Proofs about file caches at arbitrary paths (C119). *)
From Verif Require Import Prelude CacheModel CacheSpec CacheLemmas CacheProofs PathModel PathSpec.
From Coq Require Import Ascii.
Local Open Scope nat_scope.
Local Open Scope list_scope.

(* ---------------------------------------------------------------- patterns *)

Lemma tokens_plain n l : length l <= n -> ~ In "["%char l -> tokens_match (tokens n l) l = true.
Proof.
  revert n. induction l as [|c r IH]; intros n Hn Hb.
  - destruct n; reflexivity.
  - destruct n as [|n]; [simpl in Hn; lia|].
    assert (Hr : tokens_match (tokens n r) r = true).
    { apply IH; [simpl in Hn; lia|]. intros H. apply Hb. right. exact H. }
    cbn [tokens].
    destruct (Ascii.eqb c "*") eqn:E1.
    + cbn [tokens_match]. apply existsb_exists. exists r. split; [|exact Hr].
      cbn [suffixes]. right. destruct r; left; reflexivity.
    + destruct (Ascii.eqb c "?") eqn:E2; [cbn [tokens_match token_takes]; exact Hr|].
      destruct (Ascii.eqb c "[") eqn:E3.
      * apply Ascii.eqb_eq in E3. subst c. exfalso. apply Hb. left. reflexivity.
      * cbn [tokens_match token_takes]. rewrite Ascii.eqb_refl. exact Hr.
Qed.

Lemma matches_self n : ~ In "["%char n -> matches n n = true.
Proof.
  intros H. unfold matches, fnmatch. rewrite (tokens_plain (length n) n (le_n _) H).
  destruct (hidden n); reflexivity.
Qed.

Lemma ordinary_magic p : ordinary p -> forall n, In n p -> has_magic n = false.
Proof.
  intros H n Hn. unfold has_magic. destruct (existsb is_magic n) eqn:E; [|reflexivity].
  apply existsb_exists in E. destruct E as [c [Hc Em]]. destruct (H n c Hn Hc) as [A [B C]].
  unfold is_magic in Em. apply orb_true_iff in Em. destruct Em as [Em|Em].
  - apply orb_true_iff in Em. destruct Em as [Em|Em]; apply Ascii.eqb_eq in Em; contradiction.
  - apply Ascii.eqb_eq in Em. contradiction.
Qed.

Lemma ordinary_bracket p : ordinary p -> no_bracket p.
Proof. intros H n Hn Hc. destruct (H n _ Hn Hc) as [_ [_ C]]. apply C. reflexivity. Qed.

Lemma plain_prefix_app p a b : plain_prefix p = (a, b) -> p = a ++ b.
Proof.
  revert a b. induction p as [|c r IH]; intros a b H; simpl in H; [inversion H; reflexivity|].
  destruct (has_magic c); [inversion H; reflexivity|].
  destruct (plain_prefix r) as [a' b'] eqn:E. inversion H; subst. simpl. f_equal. apply IH. reflexivity.
Qed.

Lemma plain_prefix_ordinary p : (forall n, In n p -> has_magic n = false) -> plain_prefix p = (p, []).
Proof.
  induction p as [|c r IH]; intros H; simpl; [reflexivity|].
  rewrite (H c (or_introl eq_refl)). rewrite IH; [reflexivity|]. intros n Hn. apply H. right. exact Hn.
Qed.

(* ---------------------------------------------------------------- trees *)

Section Tree.
  Context {A : Type}.
  Implicit Types t u : tree A.

  Lemma path_eqb_eq p q : path_eqb p q = true <-> p = q.
  Proof. unfold path_eqb. destruct (list_eq_dec _ p q); split; intros; congruence. Qed.

  Lemma path_eqb_refl p : path_eqb p p = true.
  Proof. apply path_eqb_eq. reflexivity. Qed.

  Lemma path_eqb_neq p q : p <> q -> path_eqb p q = false.
  Proof. intros H. destruct (path_eqb p q) eqn:E; [|reflexivity]. apply path_eqb_eq in E. contradiction. Qed.

  Lemma lookup_cons e t p : lookup (e :: t) p = if path_eqb (fst e) p then Some (snd e) else lookup t p.
  Proof. unfold lookup. simpl. destruct (path_eqb (fst e) p); reflexivity. Qed.

  Lemma lookup_app t u p : lookup (t ++ u) p = match lookup t p with Some d => Some d | None => lookup u p end.
  Proof.
    induction t as [|e t IH]; [reflexivity|]. rewrite <- app_comm_cons, !lookup_cons.
    destruct (path_eqb (fst e) p); [reflexivity|exact IH].
  Qed.

  Lemma lookup_update t p f q : lookup (update t p f) q = if path_eqb q p then option_map f (lookup t q) else lookup t q.
  Proof.
    induction t as [|e t IH]; [simpl; destruct (path_eqb q p); reflexivity|].
    cbn [update map]. rewrite !lookup_cons.
    destruct (path_eqb (fst e) p) eqn:Ep.
    - apply path_eqb_eq in Ep. cbn [fst snd]. destruct (path_eqb (fst e) q) eqn:Eq.
      + apply path_eqb_eq in Eq. rewrite <- Eq, <- Ep, path_eqb_refl. reflexivity.
      + exact IH.
    - destruct (path_eqb (fst e) q) eqn:Eq.
      + apply path_eqb_eq in Eq. subst q. rewrite Ep. reflexivity.
      + exact IH.
  Qed.

  Lemma lookup_update_same t p f : lookup (update t p f) p = option_map f (lookup t p).
  Proof. rewrite lookup_update, path_eqb_refl. reflexivity. Qed.

  Lemma lookup_update_other t p f q : q <> p -> lookup (update t p f) q = lookup t q.
  Proof. intros H. rewrite lookup_update, (path_eqb_neq q p H). reflexivity. Qed.

  Lemma lookup_remove t p q : lookup (remove_dir t p) q = if path_eqb q p then None else lookup t q.
  Proof.
    induction t as [|e t IH]; [simpl; destruct (path_eqb q p); reflexivity|].
    cbn [remove_dir filter]. destruct (path_eqb (fst e) p) eqn:Ep; cbn [negb].
    - rewrite lookup_cons. apply path_eqb_eq in Ep. fold (remove_dir t p). rewrite IH.
      destruct (path_eqb q p) eqn:Eq; [reflexivity|].
      rewrite path_eqb_neq; [reflexivity|]. intros E. subst q. rewrite Ep, path_eqb_refl in Eq. discriminate.
    - rewrite !lookup_cons. fold (remove_dir t p). rewrite IH.
      destruct (path_eqb (fst e) q) eqn:Eq; [|reflexivity].
      apply path_eqb_eq in Eq. subst q. rewrite Ep. reflexivity.
  Qed.

  Lemma keys_update t p f : map fst (update t p f) = map fst t.
  Proof. unfold update. rewrite map_map. apply map_ext. intros e. destruct (path_eqb (fst e) p); reflexivity. Qed.

  Lemma exists_keys t p : exists_dir t p = true <-> In p (map fst t).
  Proof.
    unfold exists_dir. induction t as [|e t IH]; [simpl; split; [discriminate|tauto]|].
    rewrite lookup_cons. destruct (path_eqb (fst e) p) eqn:E.
    - apply path_eqb_eq in E. simpl. split; auto.
    - rewrite IH. simpl. split; [auto|]. intros [H|H]; [|exact H].
      subst p. rewrite path_eqb_refl in E. discriminate.
  Qed.

  Lemma exists_same t u p : map fst t = map fst u -> exists_dir t p = exists_dir u p.
  Proof.
    intros H. destruct (exists_dir t p) eqn:E; symmetry.
    - apply exists_keys. rewrite <- H. apply exists_keys. exact E.
    - destruct (exists_dir u p) eqn:E'; [|reflexivity]. apply exists_keys in E'. rewrite <- H in E'.
      apply exists_keys in E'. congruence.
  Qed.

  Lemma children_keys t p : children t p = flat_map (fun k => match rev k with n :: r => if path_eqb (rev r) p then [n] else [] | [] => [] end) (map fst t).
  Proof. unfold children. induction t as [|e t IH]; simpl; [reflexivity|]. rewrite IH. reflexivity. Qed.

  Lemma children_same t u p : map fst t = map fst u -> children t p = children u p.
  Proof. intros H. rewrite !children_keys, H. reflexivity. Qed.

  Lemma children_in t p n : In n (children t p) <-> exists_dir t (p ++ [n]) = true.
  Proof.
    rewrite children_keys, exists_keys, in_flat_map. split.
    - intros [k [Hk Hn]]. destruct (rev k) as [|m r] eqn:E; [destruct Hn|].
      destruct (path_eqb (rev r) p) eqn:Ep; [|destruct Hn]. apply path_eqb_eq in Ep.
      destruct Hn as [<-|[]]. rewrite <- (rev_involutive k), E in Hk. simpl in Hk. rewrite Ep in Hk. exact Hk.
    - intros H. exists (p ++ [n]). split; [exact H|]. rewrite rev_app_distr. simpl.
      rewrite rev_involutive, path_eqb_refl. left. reflexivity.
  Qed.

  Lemma expand_same t u bases rest : map fst t = map fst u -> expand t bases rest = expand u bases rest.
  Proof.
    intros H. revert bases. induction rest as [|c r IH]; intros bases; simpl; [reflexivity|].
    rewrite IH. f_equal. apply flat_map_ext. intros b.
    rewrite (children_same t u b H), (exists_same t u (b ++ [c]) H). reflexivity.
  Qed.

  Lemma glob_same t u p : map fst t = map fst u -> glob_dirs t p = glob_dirs u p.
  Proof. intros H. unfold glob_dirs. destruct (plain_prefix p). apply expand_same. exact H. Qed.

  (* every directory on the way to [p], [p] included, exists *)
  Definition reachable t (p : dpath) : Prop := forall q r, p = q ++ r -> q <> [] -> exists_dir t q = true.

  Lemma expand_self t base rest bases :
    no_bracket rest -> (forall q r, rest = q ++ r -> base ++ q <> [] -> exists_dir t (base ++ q) = true) ->
    In base bases -> In (base ++ rest) (expand t bases rest).
  Proof.
    revert base bases. induction rest as [|c r IH]; intros base bases Hb Hx Hin; simpl.
    - rewrite app_nil_r. exact Hin.
    - replace (base ++ c :: r) with ((base ++ [c]) ++ r) by (rewrite <- app_assoc; reflexivity).
      assert (Hc : exists_dir t (base ++ [c]) = true).
      { apply (Hx [c] r); [reflexivity|]. destruct base; discriminate. }
      apply IH.
      + intros n Hn. apply Hb. right. exact Hn.
      + intros q r' E _. rewrite <- app_assoc. apply (Hx (c :: q) r'); [simpl; rewrite E; reflexivity|]. destruct base; discriminate.
      + apply in_flat_map. exists base. split; [exact Hin|]. destruct (has_magic c) eqn:M.
        * apply in_map_iff. exists c. split; [reflexivity|]. apply filter_In. split; [apply children_in; exact Hc|].
          apply matches_self. apply Hb. left. reflexivity.
        * rewrite Hc. left. reflexivity.
  Qed.

  Lemma glob_self t p : no_bracket p -> reachable t p -> In p (glob_dirs t p).
  Proof.
    intros Hb Hr. unfold glob_dirs. destruct (plain_prefix p) as [a b] eqn:E. apply plain_prefix_app in E. subst p.
    apply (expand_self t a b [a]).
    - intros n Hn. apply Hb. apply in_or_app. right. exact Hn.
    - intros q r Eq Hne. apply (Hr (a ++ q) r); [rewrite Eq, app_assoc; reflexivity|exact Hne].
    - left. reflexivity.
  Qed.

  Lemma glob_ordinary t p : ordinary p -> glob_dirs t p = [p].
  Proof. intros H. unfold glob_dirs. rewrite (plain_prefix_ordinary p (ordinary_magic p H)). reflexivity. Qed.

  Lemma dataset_ordinary t p : ordinary p -> exists_dir t p = true ->
    dataset_files t p = map (fun e => (p, fst e)) (node_files t p).
  Proof. intros H E. unfold dataset_files. rewrite E, (glob_ordinary t p H). simpl. apply app_nil_r. Qed.

  Lemma fold_max_le l x : In x l -> x <= fold_right Nat.max 0 l.
  Proof. induction l as [|y l IH]; simpl; [tauto|]. intros [->|H]; [lia|]. specialize (IH H). lia. Qed.

  Lemma next_number_above t p i l : no_bracket p -> reachable t p -> p <> [] ->
    In (i, l) (node_files t p) -> i < next_number t p.
  Proof.
    intros Hb Hr Hne Hin. unfold next_number.
    assert (H : In (p, i) (dataset_files t p)).
    { unfold dataset_files. rewrite (Hr p [] (eq_sym (app_nil_r p)) Hne). apply in_flat_map. exists p.
      split; [apply glob_self; assumption|]. apply in_map_iff. exists (i, l). split; [reflexivity|exact Hin]. }
    destruct (dataset_files t p) as [|f fs] eqn:E; [destruct H|].
    assert (Hi : In i (map snd (f :: fs))) by (apply in_map_iff; exists (p, i); split; [reflexivity|exact H]).
    apply fold_max_le in Hi. lia.
  Qed.

  (* ---------------------------------------------------------------- writing *)

  Lemma open_file_new (d : dir A) i : (forall e, In e d -> fst e < i) -> open_file d i = d ++ [(i, [])].
  Proof.
    intros H. unfold open_file. destruct (existsb _ d) eqn:E; [|reflexivity].
    apply existsb_exists in E. destruct E as [e [He Ei]]. apply Nat.eqb_eq in Ei. specialize (H e He). lia.
  Qed.

  Lemma sorted_snoc (d : dir A) i c : (forall e, In e d -> fst e < i) -> StronglySorted idx_lt d -> StronglySorted idx_lt (d ++ [(i, c)]).
  Proof.
    intros H Hs. apply StronglySorted_app. split; [exact Hs|]. split; [repeat constructor|].
    intros x y Hx [<-|[]]. apply H. exact Hx.
  Qed.

  Lemma sorted_replace (d : dir A) i c c' : StronglySorted idx_lt (d ++ [(i, c)]) -> StronglySorted idx_lt (d ++ [(i, c')]).
  Proof.
    intros H. apply StronglySorted_app in H. destruct H as (H1 & _ & H3). apply sorted_snoc; [|exact H1].
    intros e He. exact (H3 e (i, c) He (or_introl eq_refl)).
  Qed.

  (* the writer at [p] behaves as the writer of CacheModel, apart from the numbers of the files *)
  Definition last_open (w : option nat) (d : dir A) (s : file_state A) : Prop :=
    match w, f_writer s with
    | None, None => True
    | Some i, Some j => exists d0 d0' l, d = d0 ++ [(i, l)] /\ f_dir s = d0' ++ [(j, l)]
    | _, _ => False
    end.

  Definition follows (p : dpath) (keys : list dpath) (g : tree A * gwriter) (s : file_state A) : Prop :=
    map fst (fst g) = keys /\
    exists cfg d, lookup (fst g) p = Some (MkNode cfg d) /\ map snd d = map snd (f_dir s) /\
      StronglySorted idx_lt d /\ StronglySorted idx_lt (f_dir s) /\
      w_buffer (snd g) = f_buffer s /\ w_count (snd g) = f_count s /\ last_open (w_open (snd g)) d s.

  Lemma map_snd_snoc (d d' : dir A) i j l l' : map snd d = map snd d' -> l = l' -> map snd (d ++ [(i, l)]) = map snd (d' ++ [(j, l')]).
  Proof. intros H ->. rewrite !map_app, H. reflexivity. Qed.

  Section Session.
    Variables (p : dpath) (keys : list dpath).
    Hypothesis p_ne : p <> [].
    Hypothesis p_ok : no_bracket p.
    Hypothesis p_there : forall t, map fst t = keys -> reachable t p.

    Lemma next_above t cfg d : map fst t = keys -> lookup t p = Some (MkNode cfg d) -> forall e, In e d -> fst e < next_number t p.
    Proof.
      intros Hk Hl [i l] He. apply (next_number_above t p i l p_ok (p_there t Hk) p_ne).
      unfold node_files. rewrite Hl. exact He.
    Qed.

    Lemma follows_append g s rows : follows p keys g s ->
      follows p keys (g_append p g rows) (file_append s rows).
    Proof.
      destruct g as [t w]. intros (Hk & cfg & d & Hl & Hm & Hsd & Hss & Hb & Hc & Ho). cbn [fst snd] in *.
      unfold g_append, file_append, get_writer. unfold last_open in Ho.
      destruct (w_open w) as [i|] eqn:Ew, (f_writer s) as [j|] eqn:Es; try contradiction.
      - destruct Ho as (d0 & d0' & l & -> & Hd0'). split; cbn [fst snd]; [rewrite keys_update; exact Hk|].
        exists cfg, (d0 ++ [(i, l ++ rows)]). rewrite lookup_update_same, Hl. unfold on_files; cbn [option_map n_cfg n_files].
        rewrite (append_file_last d0 i l rows Hsd).
        cbn [f_dir f_writer f_buffer f_count w_open w_buffer w_count]. rewrite Hd0' in Hss, Hm |- *. rewrite (append_file_last d0' j l rows Hss).
        split; [reflexivity|]. rewrite !map_app in Hm. apply app_inj_tail in Hm. destruct Hm as [Hm _].
        split; [apply map_snd_snoc; [exact Hm|reflexivity]|].
        split; [eapply sorted_replace; exact Hsd|]. split; [eapply sorted_replace; exact Hss|].
        split; [exact Hb|]. split; [exact Hc|]. unfold last_open. cbn. rewrite Es. exists d0, d0', (l ++ rows). auto.
      - set (i := next_number t p). set (j := next_index (f_dir s)).
        assert (Hi : forall e, In e d -> fst e < i) by (apply (next_above t cfg d Hk Hl)).
        assert (Hj : forall e, In e (f_dir s) -> fst e < j) by (intros e He; apply next_index_gt; exact He).
        split; cbn [fst snd]; [rewrite !keys_update; exact Hk|].
        exists cfg, (d ++ [(i, rows)]). rewrite !lookup_update_same, Hl. unfold on_files; cbn [option_map n_cfg n_files].
        rewrite (open_file_new d i Hi), (append_file_last d i [] rows (sorted_snoc d i [] Hi Hsd)).
        cbn [f_dir f_writer f_buffer f_count w_open w_buffer w_count].
        rewrite (append_file_last (f_dir s) j [] rows (sorted_snoc _ j [] Hj Hss)). rewrite !app_nil_l.
        split; [reflexivity|]. split; [apply map_snd_snoc; [exact Hm|reflexivity]|].
        split; [apply sorted_snoc; assumption|]. split; [apply sorted_snoc; assumption|].
        split; [exact Hb|]. split; [exact Hc|]. unfold last_open. cbn. exists d, (f_dir s), rows. auto.
    Qed.

    Lemma follows_close t w s w' : follows p keys (t, w) s -> w_open w' = None -> w_buffer w' = [] -> w_count w' = 0 ->
      follows p keys (t, w') (MkFile (f_dir s) None [] 0).
    Proof.
      intros (Hk & cfg & d & Hl & Hm & Hsd & Hss & Hb & Hc & Ho) H1 H2 H3. split; [exact Hk|]. cbn [fst snd] in *.
      exists cfg, d. cbn [f_dir f_buffer f_count]. unfold last_open. rewrite H1, H2, H3. cbn. auto 10.
    Qed.

    Lemma follows_set t w s b c o : follows p keys (t, w) s -> o = w_open w ->
      follows p keys (t, MkW o b c) (MkFile (f_dir s) (f_writer s) b c).
    Proof.
      intros (Hk & cfg & d & Hl & Hm & Hsd & Hss & Hb & Hc & Ho) ->. split; [exact Hk|]. cbn [fst snd] in *.
      exists cfg, d. cbn [f_dir f_buffer f_count w_buffer w_count w_open]. unfold last_open in *. cbn [f_writer f_dir]. auto 10.
    Qed.

    Lemma follows_flush g s : follows p keys g s -> follows p keys (g_flush p g) (file_flush s).
    Proof.
      intros H. assert (Hb : w_buffer (snd g) = f_buffer s) by (destruct H as (_ & ? & ? & _ & _ & _ & _ & Hb & _); exact Hb).
      unfold g_flush, file_flush. rewrite Hb. destruct (f_buffer s) eqn:E.
      - destruct g as [t w]. apply (follows_close t w s); [exact H|reflexivity..].
      - pose proof (follows_append g s (concat (l :: l0)) H) as H'. destruct (g_append p g (concat (l :: l0))) as [t w].
        apply (follows_close t w (file_append s (concat (l :: l0)))); [exact H'|reflexivity..].
    Qed.

    Lemma follows_batch bs rpf g s b : follows p keys g s -> follows p keys (g_write_batch bs rpf p g b) (file_write_batch bs rpf s b).
    Proof.
      intros H. destruct g as [t w].
      assert (Hb : w_buffer w = f_buffer s) by (destruct H as (_ & ? & ? & _ & _ & _ & _ & Hb & _); exact Hb).
      assert (Hc : w_count w = f_count s) by (destruct H as (_ & ? & ? & _ & _ & _ & _ & _ & Hc & _); exact Hc).
      unfold g_write_batch, file_write_batch. rewrite Hb, Hc.
      destruct ((_ <? bs) && (f_count s <? rpf)).
      - apply (follows_set t w s); [exact H|reflexivity].
      - set (batch := match f_buffer s with [] => b | _ :: _ => concat (f_buffer s ++ [b]) end).
        pose proof (follows_append _ _ batch (follows_set t w s [] (f_count s) (w_open w) H eq_refl)) as H1.
        set (s1 := file_append (MkFile (f_dir s) (f_writer s) [] (f_count s)) batch) in *.
        destruct (g_append p (t, MkW (w_open w) [] (f_count s)) batch) as [t2 w2].
        assert (Hb2 : w_buffer w2 = f_buffer s1) by (destruct H1 as (_ & ? & ? & _ & _ & _ & _ & Hb2 & _); exact Hb2).
        assert (Hc2 : w_count w2 = f_count s1) by (destruct H1 as (_ & ? & ? & _ & _ & _ & _ & _ & Hc2 & _); exact Hc2).
        cbn [w_count f_count]. rewrite Hb2, Hc2.
        pose proof (follows_set t2 w2 s1 (f_buffer s1) (f_count s1 + (length b + list_sum_nat (map (length (A:=A)) (f_buffer s)))) (w_open w2) H1 eq_refl) as H2.
        destruct (rpf <=? _); [apply follows_flush; exact H2|exact H2].
    Qed.

    Lemma follows_step bs rpf g s o : follows p keys g s -> follows p keys (g_step bs rpf p g o) (file_step bs rpf s o).
    Proof.
      intros H. destruct o as [r|b|r|]; cbn [g_step file_step].
      - destruct r; [exact H|]. apply follows_batch. exact H.
      - apply follows_batch. exact H.
      - unfold g_write_table, file_write_table. pose proof (follows_flush g s H) as H1.
        destruct (g_flush p g) as [t w] eqn:Eg. set (s1 := file_flush s) in *.
        assert (Hn : f_writer s1 = None /\ w_open w = None).
        { split; [reflexivity|]. unfold g_flush in Eg. inversion Eg. reflexivity. }
        destruct Hn as [Hn1 Hn2]. destruct H1 as (Hk & cfg & d & Hl & Hm & Hsd & Hss & Hb & Hc & Ho). cbn [fst snd] in *.
        set (i := next_number t p). set (j := next_index (f_dir s1)).
        assert (Hi : forall e, In e d -> fst e < i) by (apply (next_above t cfg d Hk Hl)).
        assert (Hj : forall e, In e (f_dir s1) -> fst e < j) by (intros e He; apply next_index_gt; exact He).
        split; cbn [fst snd]; [rewrite keys_update; exact Hk|].
        exists cfg, (d ++ [(i, r)]). rewrite lookup_update_same, Hl. unfold on_files; cbn [option_map n_cfg n_files].
        rewrite (open_file_new d i Hi), (append_file_last d i [] r (sorted_snoc d i [] Hi Hsd)). rewrite app_nil_l.
        cbn [f_dir f_writer f_buffer f_count].
        split; [reflexivity|]. split; [apply map_snd_snoc; [exact Hm|reflexivity]|].
        split; [apply sorted_snoc; assumption|]. split; [apply sorted_snoc; assumption|].
        split; [exact Hb|]. split; [exact Hc|]. unfold last_open. cbn. rewrite Hn2. exact I.
      - apply follows_flush. exact H.
    Qed.

    Lemma follows_run bs rpf ops g s : follows p keys g s ->
      follows p keys (fold_left (g_step bs rpf p) ops g) (fold_left (file_step bs rpf) ops s).
    Proof. revert g s. induction ops as [|o ops IH]; intros g s H; [exact H|]. simpl. apply IH. apply follows_step. exact H. Qed.

    Lemma session_tables bs rpf t cfg ops : map fst t = keys -> lookup t p = Some (MkNode cfg []) ->
      g_read (g_session bs rpf t p ops) p = file_tables (f_dir (file_flush (file_run bs rpf ops))).
    Proof.
      intros Hk Hl.
      assert (H0 : follows p keys (t, w_init) file_init).
      { split; [exact Hk|]. exists cfg, []. cbn. repeat split; try assumption; constructor. }
      pose proof (follows_flush _ _ (follows_run bs rpf ops _ _ H0)) as H. fold (file_run bs rpf ops) in H.
      destruct H as (_ & cfg' & d & Hl' & Hm & Hsd & Hss & _). unfold g_read, g_session, node_files. rewrite Hl'. cbn [n_files].
      rewrite (file_tables_listing d d Hsd (Permutation_refl d)), (file_tables_listing _ _ Hss (Permutation_refl _)). exact Hm.
    Qed.
  End Session.
End Tree.
