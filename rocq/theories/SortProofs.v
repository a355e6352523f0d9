From Verif Require Import Prelude CacheModel CacheSpec CacheProofs.

Section SortP.
  Context {A : Type}.
  Variable sp : sorting A.

  Notation entry := (list Z * nat * nat)%type.
  Notation key := (sort_key sp).
  Notation leb := (row_leb sp).

  Lemma row_leb_key a b : leb a b = lex_leb (key a) (key b).
  Proof.
    induction sp as [|[c d] r IH]; simpl; [reflexivity|].
    destruct (Z.eqb_spec (c a) (c b)) as [E|E].
    - rewrite IH. destruct d; simpl; rewrite E, Z.ltb_irrefl, Z.eqb_refl; reflexivity.
    - destruct d; simpl.
      + destruct (Z.eqb_spec (- c a) (- c b)); [lia|]. simpl. rewrite orb_false_r. lia.
      + destruct (Z.eqb_spec (c a) (c b)); [lia|]. simpl. rewrite orb_false_r. reflexivity.
  Qed.

  Lemma row_leb_total a b : leb a b = true \/ leb b a = true.
  Proof. rewrite !row_leb_key. apply lex_leb_total. Qed.
  Lemma row_leb_trans a b c : leb a b = true -> leb b c = true -> leb a c = true.
  Proof. rewrite !row_leb_key. apply lex_leb_trans. Qed.

  Lemma key_length a : length (key a) = length sp.
  Proof. unfold sort_key. apply map_length. Qed.

  Notation stable := (stable_sort_of leb).

  (* taking the minimal head of the first fragment attaining it *)
  Lemma stable_step r1 a r r2 out :
    (forall x, In x (concat r1) -> leb x a = false) ->
    (forall x, In x (concat (r :: r2)) -> leb a x = true) ->
    stable (concat (r1 ++ r :: r2)) out ->
    stable (concat (r1 ++ (a :: r) :: r2)) (a :: out).
  Proof.
    intros H1 H2 [Hs Hf]. rewrite concat_app in *. cbn [concat] in *. split.
    - constructor; [exact Hs|]. rewrite Forall_forall. intros x Hx.
      assert (Hp : Permutation (concat r1 ++ r ++ concat r2) out)
        by (apply (stable_sort_perm leb row_leb_total row_leb_trans); split; auto).
      apply (Permutation_in x (Permutation_sym Hp)) in Hx. apply in_app_or in Hx.
      unfold leP. destruct Hx as [Hx|Hx].
      + destruct (row_leb_total x a) as [E|E]; [rewrite (H1 x Hx) in E; discriminate|exact E].
      + apply H2; exact Hx.
    - intros x. simpl. rewrite Hf. rewrite !filter_app. simpl. rewrite filter_app.
      destruct (eqv leb x a) eqn:E; [|reflexivity].
      rewrite (filter_none (eqv leb x) (concat r1)); [reflexivity|].
      intros y Hy. unfold eqv in *. apply andb_true_iff in E. destruct E as [E1 E2].
      destruct (leb x y && leb y x) eqn:E; [|reflexivity].
      apply andb_true_iff in E. destruct E as [E3 E4].
      rewrite <- (H1 y Hy). symmetry. apply row_leb_trans with x; assumption.
  Qed.

  (* ---- entries ---- *)
  Lemma entry_leb_total x y : entry_leb x y = true \/ entry_leb y x = true.
  Proof. destruct x as [[? ?] ?], y as [[? ?] ?]. apply lex_leb_total. Qed.
  Lemma entry_leb_trans x y z : entry_leb x y = true -> entry_leb y z = true -> entry_leb x z = true.
  Proof. destruct x as [[? ?] ?], y as [[? ?] ?], z as [[? ?] ?]. apply lex_leb_trans. Qed.

  Lemma pop_min_spec h :
    match pop_min h with
    | None => h = []
    | Some (m, r) => Permutation h (m :: r) /\ forall e, In e h -> entry_leb m e = true
    end.
  Proof.
    induction h as [|x t IH]; simpl; [reflexivity|].
    destruct (pop_min t) as [[m r]|] eqn:E.
    - destruct IH as [IHp IHm].
      destruct (entry_leb x m) eqn:Ex.
      + split; [reflexivity|]. intros e [<-|He].
        * destruct (entry_leb_total x x); assumption.
        * apply entry_leb_trans with m; auto.
      + split.
        * rewrite IHp. apply perm_swap.
        * intros e [<-|He]; [|auto]. destruct (entry_leb_total x m); [congruence|assumption].
    - subst t. split; [reflexivity|]. intros e [<-|[]].
      destruct (entry_leb_total x x); assumption.
  Qed.

  Lemma lex_leb_app k1 k2 u v :
    length k1 = length k2 ->
    lex_leb (k1 ++ u) (k2 ++ v) = true ->
    lex_leb k1 k2 = true /\ (lex_leb k2 k1 = true -> lex_leb u v = true).
  Proof.
    revert k2. induction k1 as [|x k1 IH]; intros [|y k2] Hl; try discriminate; simpl.
    - intros H; split; auto.
    - intros H. injection Hl as Hl. apply orb_true_iff in H. rewrite andb_true_iff in H.
      destruct H as [H|[H1 H2]].
      + split; [apply orb_true_iff; left; exact H|].
        intros F. apply orb_true_iff in F. rewrite andb_true_iff in F. lia.
      + destruct (IH k2 Hl H2) as [I1 I2]. split.
        * apply orb_true_iff. right. apply andb_true_iff. auto.
        * intros F. apply orb_true_iff in F. rewrite andb_true_iff in F.
          destruct F as [F|[_ F]]; [lia|auto].
  Qed.

  Lemma entry_min a i ri b j rj :
    entry_leb (key a, i, ri) (key b, j, rj) = true ->
    leb a b = true /\ (j < i -> leb b a = false).
  Proof.
    unfold entry_leb. intros H.
    destruct (lex_leb_app (key a) (key b) _ _ (eq_trans (key_length a) (eq_sym (key_length b))) H) as [H1 H2].
    split; [rewrite row_leb_key; exact H1|].
    intros Hij. rewrite row_leb_key. destruct (lex_leb (key b) (key a)) eqn:E; [|reflexivity].
    specialize (H2 eq_refl). simpl in H2. apply orb_true_iff in H2. lia.
  Qed.

  (* ---- fragment states ---- *)
  Notation fst_ := (list A * nat * list (list A))%type.

  Definition remaining (f : fst_) : list A :=
    let '(b, ri, its) := f in skipn ri b ++ concat its.

  Definition fentry (i : nat) (f : fst_) : list entry :=
    let '(b, ri, _) := f in
    match skipn ri b with a :: _ => [(key a, i, ri)] | [] => [] end.

  Fixpoint entries (i : nat) (fs : list fst_) : list entry :=
    match fs with [] => [] | f :: t => fentry i f ++ entries (S i) t end.

  Definition fwf (f : fst_) : Prop :=
    let '(b, ri, its) := f in
    Forall (fun x => x <> []) its /\ (skipn ri b = [] -> its = []).

  Definition cok (f : fst_) (c : option (list A) * list (list A)) : Prop :=
    let '(b, ri, its) := f in skipn ri b <> [] -> c = (Some b, its).

  Lemma entries_app i f1 f2 : entries i (f1 ++ f2) = entries i f1 ++ entries (i + length f1) f2.
  Proof.
    revert i. induction f1 as [|f t IH]; intros i; simpl.
    - rewrite Nat.add_0_r. reflexivity.
    - rewrite IH, <- app_assoc. do 3 f_equal. lia.
  Qed.

  Lemma entries_in k j rj i fs :
    In (k, j, rj) (entries i fs) ->
    exists f1 f f2, fs = f1 ++ f :: f2 /\ j = i + length f1 /\ fentry j f = [(k, j, rj)].
  Proof.
    revert i. induction fs as [|f t IH]; simpl; intros i H; [destruct H|].
    apply in_app_or in H. destruct H as [H|H].
    - exists [], f, t. unfold fentry in *. destruct f as [[b ri] its].
      destruct (skipn ri b) eqn:E; simpl in H; [destruct H|].
      destruct H as [H|[]]. injection H as <- <- <-.
      split; [reflexivity|]. split; [simpl; lia|reflexivity].
    - destruct (IH (S i) H) as (f1 & f0 & f2 & -> & Hj & He).
      exists (f :: f1), f0, f2. simpl. split; [reflexivity|]. split; [lia|exact He].
  Qed.

  Lemma skipn_cons_nth {B} (l : list B) n a r : skipn n l = a :: r -> nth_error l n = Some a /\ skipn (S n) l = r.
  Proof.
    revert n. induction l as [|x l IH]; intros [|n]; simpl; intros H; try discriminate.
    - injection H as -> ->. auto.
    - apply IH in H. exact H.
  Qed.

  Lemma nth_error_skipn {B} (l : list B) n :
    match nth_error l n with Some a => exists r, skipn n l = a :: r | None => skipn n l = [] end.
  Proof.
    revert n. induction l as [|x l IH]; intros [|n]; simpl; auto; [eauto|]. apply IH.
  Qed.

  Lemma set_nth_mid {B} (l1 : list B) x y l2 : set_nth (length l1) y (l1 ++ x :: l2) = l1 ++ y :: l2.
  Proof.
    unfold set_nth. rewrite firstn_app, firstn_all, Nat.sub_diag, skipn_app, skipn_all, Nat.sub_diag.
    simpl. rewrite app_nil_r. reflexivity.
  Qed.

  Lemma nth_error_mid {B} (l1 : list B) x l2 : nth_error (l1 ++ x :: l2) (length l1) = Some x.
  Proof. rewrite nth_error_app2 by lia. rewrite Nat.sub_diag. reflexivity. Qed.

  Lemma remaining_nil f : fwf f -> fentry 0 f = [] -> remaining f = [].
  Proof.
    destruct f as [[b ri] its]. simpl. intros [_ H]. destruct (skipn ri b) eqn:E; [|discriminate].
    intros _. rewrite (H eq_refl). reflexivity.
  Qed.

  Lemma merge_correct fuel : forall heap cs fs,
    Permutation heap (entries 0 fs) ->
    Forall2 cok fs cs ->
    Forall fwf fs ->
    Forall (fun f => StronglySorted (leP leb) (remaining f)) fs ->
    length (concat (map remaining fs)) <= fuel ->
    exists out, merge_loop sp fuel heap cs = Some out /\ stable (concat (map remaining fs)) out.
  Proof.
    induction fuel as [|fuel IH]; intros heap cs fs Hh Hc Hw Hsrt Hfuel.
    - (* no rows left: the heap is empty *)
      assert (Hr : forall f, In f fs -> remaining f = []).
      { intros f Hf. apply in_split in Hf. destruct Hf as (f1 & f2 & ->).
        rewrite map_app, concat_app in Hfuel. simpl in Hfuel. rewrite !app_length in Hfuel.
        destruct (remaining f); [reflexivity|simpl in Hfuel; lia]. }
      assert (He : heap = []).
      { assert (E : entries 0 fs = []).
        { clear Hh Hc Hw Hsrt Hfuel. generalize 0.
          induction fs as [|f t IHf]; intros i; simpl; [reflexivity|].
          rewrite IHf by (intros; apply Hr; right; assumption).
          specialize (Hr f (or_introl eq_refl)). destruct f as [[b ri] its]. simpl in *.
          destruct (skipn ri b); [reflexivity|discriminate]. }
        rewrite E in Hh. apply Permutation_sym, Permutation_nil in Hh. exact Hh. }
      subst heap. exists []. split; [reflexivity|].
      assert (E : concat (map remaining fs) = []).
      { destruct (concat (map remaining fs)); [reflexivity|simpl in Hfuel; lia]. }
      rewrite E. split; [constructor|reflexivity].
    - pose proof (pop_min_spec heap) as Hpop. cbn [merge_loop].
      destruct (pop_min heap) as [[[[k bi] ri] heap']|] eqn:Ep.
      2:{ subst heap. apply Permutation_nil in Hh.
          exists []. split; [reflexivity|].
          assert (E : concat (map remaining fs) = []).
          { clear -Hh Hw. revert Hh. generalize 0.
            induction fs as [|f t IHf]; intros i H; simpl; [reflexivity|].
            simpl in H. apply app_eq_nil in H. destruct H as [H1 H2].
            inversion Hw; subst. rewrite (IHf H4 _ H2), app_nil_r.
            apply remaining_nil; auto. destruct f as [[b ri] its]. simpl in *.
            destruct (skipn ri b); [reflexivity|discriminate]. }
          rewrite E. split; [constructor|reflexivity]. }
      destruct Hpop as [Hperm Hmin].
      assert (Hin : In (k, bi, ri) (entries 0 fs)).
      { eapply Permutation_in; [exact Hh|]. eapply Permutation_in; [symmetry; exact Hperm|left; reflexivity]. }
      destruct (entries_in _ _ _ _ _ Hin) as (f1 & f & f2 & -> & Hbi & Hfe).
      simpl in Hbi. subst bi.
      destruct f as [[b ri0] its]. cbn [fentry] in Hfe.
      destruct (skipn ri0 b) as [|a rest] eqn:Esk; [discriminate|].
      injection Hfe as Hk Hri. subst ri0 k.
      apply Forall2_app_inv_l in Hc. destruct Hc as (c1 & c2' & Hc1 & Hc2 & ->).
      inversion Hc2 as [|? c ? c2 Hcf Hc2' E1 E2]; subst.
      assert (Elen : length f1 = length c1) by (eapply Forall2_len; exact Hc1).
      cbn [cok] in Hcf. rewrite Esk in Hcf. specialize (Hcf ltac:(discriminate)). subst c.
      assert (Hnth : nth_error (c1 ++ (Some b, its) :: c2) (length f1) = Some (Some b, its))
        by (rewrite Elen; apply nth_error_mid).
      rewrite Hnth.
      assert (Hset : forall y, set_nth (length f1) y (c1 ++ (Some b, its) :: c2) = c1 ++ y :: c2)
        by (intros y; rewrite Elen; apply set_nth_mid).
      rewrite (proj1 (skipn_cons_nth _ _ _ _ Esk)).
      apply Forall_app in Hw. destruct Hw as [Hw1 Hw2]. inversion Hw2 as [|? ? Hwf Hw2']; subst.
      apply Forall_app in Hsrt. destruct Hsrt as [Hsr1 Hsr2]. inversion Hsr2 as [|? ? Hsrf Hsr2']; subst.
      cbn [fwf] in Hwf. destruct Hwf as [Hne Hex].
      cbn [remaining] in Hsrf. rewrite Esk in Hsrf. simpl in Hsrf.
      inversion Hsrf as [|? ? Hsrf' Hfor]; subst.
      (* heap' *)
      assert (Hheap' : Permutation heap' (entries 0 f1 ++ entries (S (length f1)) f2)).
      { apply Permutation_cons_inv with (a := (key a, length f1, ri)).
        rewrite <- Hperm, Hh, entries_app. simpl. rewrite Esk. simpl.
        symmetry. apply Permutation_middle. }
      (* minimality *)
      assert (Hlow : forall x, In x (concat (map remaining f1)) -> leb x a = false).
      { intros x Hx. apply in_concat in Hx. destruct Hx as (l & Hl & Hx).
        apply in_map_iff in Hl. destruct Hl as (g & <- & Hg).
        apply in_split in Hg. destruct Hg as (g1 & g2 & ->).
        destruct g as [[gb gr] gi]. cbn [remaining] in Hx.
        rewrite Forall_app in Hw1. destruct Hw1 as [_ Hw1]. inversion Hw1 as [|? ? Hgw _]; subst.
        rewrite Forall_app in Hsr1. destruct Hsr1 as [_ Hsr1]. inversion Hsr1 as [|? ? Hgs _]; subst.
        cbn [fwf remaining] in *. destruct Hgw as [_ Hgx].
        destruct (skipn gr gb) as [|h hr] eqn:Eg.
        { rewrite (Hgx eq_refl) in Hx. destruct Hx. }
        assert (Hent : In (key h, length g1, gr) heap).
        { eapply Permutation_in; [symmetry; exact Hh|].
          rewrite <- app_assoc. rewrite entries_app. apply in_or_app. right. simpl. rewrite Eg.
          left. reflexivity. }
        pose proof (Hmin _ Hent) as Hle. apply entry_min in Hle. destruct Hle as [_ Hlt].
        rewrite app_length in Hlt. simpl in Hlt. specialize (Hlt ltac:(lia)).
        destruct (leb x a) eqn:Exa; [|reflexivity].
        rewrite <- Hlt. symmetry. apply row_leb_trans with x; [|exact Exa].
        simpl in Hgs, Hx. inversion Hgs as [|? ? _ Hgf]; subst. rewrite Forall_forall in Hgf.
        destruct Hx as [<-|Hx]; [apply (leb_refl leb row_leb_total)|apply Hgf; exact Hx]. }
      assert (Hhigh : forall x, In x (concat ((rest ++ concat its) :: map remaining f2)) -> leb a x = true).
      { intros x Hx. simpl in Hx. apply in_app_or in Hx. destruct Hx as [Hx|Hx].
        - rewrite Forall_forall in Hfor. apply Hfor; exact Hx.
        - apply in_concat in Hx. destruct Hx as (l & Hl & Hx).
          apply in_map_iff in Hl. destruct Hl as (g & <- & Hg).
          apply in_split in Hg. destruct Hg as (g1 & g2 & ->).
          destruct g as [[gb gr] gi]. cbn [remaining] in Hx.
          rewrite Forall_app in Hw2'. destruct Hw2' as [_ Hw2']. inversion Hw2' as [|? ? Hgw _]; subst.
          rewrite Forall_app in Hsr2'. destruct Hsr2' as [_ Hsr2']. inversion Hsr2' as [|? ? Hgs _]; subst.
          cbn [fwf remaining] in *. destruct Hgw as [_ Hgx].
          destruct (skipn gr gb) as [|h hr] eqn:Eg.
          { rewrite (Hgx eq_refl) in Hx. destruct Hx. }
          assert (Hent : In (key h, S (length f1) + length g1, gr) heap).
          { eapply Permutation_in; [symmetry; exact Hh|].
            rewrite entries_app. apply in_or_app. right.
            cbn [entries]. apply in_or_app. right. rewrite entries_app. apply in_or_app. right.
            cbn [entries fentry]. rewrite Eg. left. reflexivity. }
          pose proof (Hmin _ Hent) as Hle. apply entry_min in Hle. destruct Hle as [Hle _].
          apply row_leb_trans with h; [exact Hle|].
          simpl in Hgs, Hx. inversion Hgs as [|? ? _ Hgf]; subst. rewrite Forall_forall in Hgf.
          destruct Hx as [<-|Hx]; [apply (leb_refl leb row_leb_total)|apply Hgf; exact Hx]. }
      pose proof (proj2 (skipn_cons_nth _ _ _ _ Esk)) as Hsk'.
      (* generic continuation *)
      assert (Hcont : forall f' heap2 cs2,
        remaining f' = rest ++ concat its -> fwf f' ->
        Permutation heap2 (entries 0 (f1 ++ f' :: f2)) ->
        Forall2 cok (f1 ++ f' :: f2) cs2 ->
        exists out, option_map (cons a) (merge_loop sp fuel heap2 cs2) = Some out
          /\ stable (concat (map remaining (f1 ++ (b, ri, its) :: f2))) out).
      { intros f' heap2 cs2 Hrem Hwf' Hp2 Hcok2.
        destruct (IH heap2 cs2 (f1 ++ f' :: f2)) as (out & Hm & Hst); auto.
        - apply Forall_app. split; auto.
        - apply Forall_app. split; auto. constructor; auto. rewrite Hrem. exact Hsrf'.
        - rewrite map_app, concat_app in Hfuel |- *. cbn [map concat] in Hfuel |- *.
          rewrite Hrem. cbn [remaining] in Hfuel. rewrite Esk in Hfuel.
          rewrite !app_length in Hfuel |- *. simpl in Hfuel. lia.
        - exists (a :: out). rewrite Hm. split; [reflexivity|].
          rewrite map_app in Hst |- *. cbn [map] in Hst |- *. rewrite Hrem in Hst.
          cbn [remaining]. rewrite Esk. simpl app. apply stable_step; auto. }
      pose proof (nth_error_skipn b (S ri)) as Hnx. rewrite Hsk' in Hnx.
      destruct (nth_error b (S ri)) as [nxt|] eqn:En.
      + destruct Hnx as (r' & Er). apply (Hcont (b, S ri, its)).
        * cbn [remaining]. rewrite Hsk'. reflexivity.
        * cbn [fwf]. rewrite Hsk', Er. split; [exact Hne|discriminate].
        * rewrite entries_app. cbn [entries fentry]. rewrite Hsk', Er. simpl.
          rewrite Hheap'. apply Permutation_middle.
        * apply Forall2_app; auto. constructor; [cbn [cok]; auto|exact Hc2'].
      + rewrite Hnx in Hsk', Hcont. rewrite Hset. destruct its as [|b' r'].
        * simpl advance. apply (Hcont (b, S ri, [])).
          -- cbn [remaining]. rewrite Hsk'. reflexivity.
          -- cbn [fwf]. split; [constructor|reflexivity].
          -- cbn [first_entry fst]. rewrite entries_app. cbn [entries fentry]. rewrite Hsk'.
             simpl. exact Hheap'.
          -- apply Forall2_app; auto. constructor; [cbn [cok]; rewrite Hsk'; congruence|exact Hc2'].
        * simpl advance. inversion Hne as [|? ? Hb' Hr']; subst.
          apply (Hcont (b', 0, r')).
          -- cbn [remaining]. reflexivity.
          -- cbn [fwf]. split; [exact Hr'|]. simpl. intros E; contradiction.
          -- rewrite entries_app. cbn [entries fentry]. unfold first_entry. cbn [fst].
             destruct b' as [|x b']; [contradiction|]. cbn [skipn].
             simpl. rewrite Hheap'. apply Permutation_middle.
          -- apply Forall2_app; auto. constructor; [cbn [cok]; auto|exact Hc2'].
  Qed.

  Lemma merge_batches_correct (frags : list (list (list A))) :
    Forall (Forall (fun b => b <> [])) frags ->
    Forall (fun f => StronglySorted (leP leb) (concat f)) frags ->
    exists out, merge_batches sp frags = Some out /\ stable (concat (map (@concat A) frags)) out.
  Proof.
    intros Hne Hs. unfold merge_batches.
    set (mk := fun f : list (list A) => match f with [] => ([], 0, []) | b :: r => (b, 0, r) end : fst_).
    assert (Hrem : map remaining (map mk frags) = map (@concat A) frags).
    { rewrite map_map. apply map_ext. intros [|b r]; reflexivity. }
    destruct (merge_correct (length (concat (concat frags))) (init_heap sp 0 (map advance frags))
                (map advance frags) (map mk frags)) as (out & Hm & Hst).
    - generalize 0. clear Hs Hrem. induction frags as [|f t IH]; intros i; simpl; [constructor|].
      inversion Hne; subst. rewrite (IH H2 (S i)). apply Permutation_app_tail.
      destruct f as [|b r]; simpl; [constructor|]. unfold first_entry; simpl.
      destruct b; reflexivity.
    - clear. induction frags as [|f t IH]; simpl; constructor; auto.
      destruct f as [|b r]; simpl; [congruence|auto].
    - clear Hs Hrem. induction Hne as [|f t Hf Ht IH]; simpl; constructor; auto.
      destruct f as [|b r]; simpl; [split; [constructor|auto]|].
      inversion Hf; subst. split; [assumption|]. intros; contradiction.
    - clear Hne Hrem. induction Hs as [|f t Hf Ht IH]; simpl; constructor; auto.
      destruct f as [|b r]; simpl; [constructor|exact Hf].
    - rewrite Hrem, concat_map_concat. lia.
    - exists out. split; [exact Hm|]. rewrite Hrem in Hst. exact Hst.
  Qed.

  Lemma run_tables_dir bs rpf (ls : list (list A)) :
    file_tables (f_dir (file_flush (file_run bs rpf (map WriteTable ls)))) = ls.
  Proof.
    rewrite (read_tables bs rpf (map WriteTable ls)) by (unfold lists_files; reflexivity).
    assert (H : map snd (f_dir (file_run bs rpf (map WriteTable ls))) = ls
              /\ f_buffer (file_run bs rpf (map WriteTable ls)) = []).
    { induction ls as [|l ls IH] using rev_ind; [split; reflexivity|].
      rewrite map_app. cbn [map].
      rewrite file_run_snoc. cbn [file_step]. unfold file_write_table, file_flush.
      destruct IH as [IH1 IH2]. rewrite IH2. cbn [f_dir f_buffer]. rewrite map_app, IH1. split; reflexivity. }
    destruct H as [H1 H2]. unfold file_flush. rewrite H2. exact H1.
  Qed.

  Lemma concat_map_filter_sort (ts : list (list A)) x :
    filter (eqv leb x) (concat (map (isort leb) ts)) = filter (eqv leb x) (concat ts).
  Proof.
    induction ts as [|t ts IH]; simpl; [reflexivity|].
    rewrite !filter_app, IH. f_equal.
    destruct (isort_stable leb row_leb_total row_leb_trans t) as [_ H]. apply H.
  Qed.

  Lemma stable_of_local ts out :
    stable (concat (map (isort leb) ts)) out -> stable (concat ts) out.
  Proof.
    intros [H1 H2]. split; [exact H1|]. intros x. rewrite H2. apply concat_map_filter_sort.
  Qed.

  Lemma written_singletons (rows : list A) :
    written (map (fun r => WriteBatch [r]) rows ++ [Flush]) = rows.
  Proof.
    unfold written. rewrite map_app, concat_app, map_map. simpl. rewrite app_nil_r.
    induction rows as [|r t IH]; simpl; [reflexivity|]. rewrite IH. reflexivity.
  Qed.

  (* file-backed sink, arbitrary local sort *)
  Lemma sort_file_sink bs rpf local_sort rebatch tables :
    batching_ok rebatch ->
    (forall t, In t tables -> StronglySorted (leP leb) (local_sort t)) ->
    exists ops out, sort_ops KFile bs rpf sp local_sort rebatch tables = Some ops
      /\ written ops = out /\ stable (concat (map local_sort tables)) out.
  Proof.
    intros Hb Hl. unfold sort_ops.
    destruct (Nat.eqb_spec (length tables) 1) as [E|E].
    - destruct tables as [|t [|t' ts]]; try discriminate. simpl.
      exists [WriteTable (local_sort t); Flush], (local_sort t).
      split; [reflexivity|]. split; [unfold written; simpl; rewrite !app_nil_r; reflexivity|].
      rewrite app_nil_r. split; [apply Hl; left; reflexivity|reflexivity].
    - unfold intermediate_runs. rewrite run_tables_dir.
      destruct (merge_batches_correct (map rebatch (map local_sort tables))) as (out & Hm & Hst).
      + rewrite Forall_map. apply Forall_forall. intros l _. apply Hb.
      + rewrite !Forall_map. apply Forall_forall. intros l Hin.
        rewrite (proj1 (Hb (local_sort l))). apply Hl; exact Hin.
      + rewrite Hm. exists (map (fun r => WriteBatch [r]) out ++ [Flush]), out.
        split; [reflexivity|]. split; [apply written_singletons|].
        rewrite map_map in Hst. erewrite map_ext in Hst; [|intros l; apply (Hb l)].
        rewrite map_id in Hst. exact Hst.
  Qed.

  (* merging a single run just copies it *)
  Lemma merge_single (run : list (list A)) :
    Forall (fun b => b <> []) run -> merge_batches sp [run] = Some (concat run).
  Proof.
    intros Hne. unfold merge_batches. simpl map. cbn [init_heap]. rewrite app_nil_r.
    simpl concat at 1. rewrite app_nil_r.
    assert (G : forall fuel b ri its,
      Forall (fun b => b <> []) its -> length (skipn ri b ++ concat its) <= fuel -> skipn ri b <> [] ->
      merge_loop sp fuel (match skipn ri b with a :: _ => [(key a, 0, ri)] | [] => [] end) [(Some b, its)]
      = Some (skipn ri b ++ concat its)).
    { induction fuel as [|fuel IH]; intros b ri its Hi Hf Hx.
      - destruct (skipn ri b); [contradiction|simpl in Hf; lia].
      - destruct (skipn ri b) as [|a rest] eqn:Esk; [contradiction|].
        cbn [merge_loop pop_min].
        change (nth_error [(Some b, its)] 0) with (Some (Some b, its)).
        destruct (skipn_cons_nth _ _ _ _ Esk) as [Hna Hsk']. rewrite Hna.
        pose proof (nth_error_skipn b (S ri)) as Hnx. rewrite Hsk' in Hnx.
        destruct (nth_error b (S ri)) as [nxt|] eqn:En.
        + destruct Hnx as (r' & Er).
          specialize (IH b (S ri) its Hi). rewrite Hsk', Er in IH.
          rewrite IH; [rewrite Er; reflexivity|rewrite Er in Hf; simpl in *; lia|discriminate].
        + rewrite Hnx. destruct its as [|b' r'].
          * simpl. destruct fuel; reflexivity.
          * inversion Hi as [|? ? Hb' Hr']; subst. simpl advance. unfold set_nth. simpl.
            specialize (IH b' 0 r' Hr'). simpl skipn in IH. unfold first_entry; cbn [fst].
            destruct b' as [|x b']; [contradiction|]. simpl app in *.
            rewrite IH; [reflexivity|cbn [length] in *; rewrite ?app_length in *; cbn [length] in *; rewrite ?app_length in *; lia|discriminate]. }
    destruct run as [|b r].
    - simpl. reflexivity.
    - inversion Hne as [|? ? Hb Hr]; subst. simpl advance. unfold first_entry; cbn [fst].
      specialize (G (length (concat (b :: r))) b 0 r Hr). simpl skipn in G.
      destruct b as [|x b]; [contradiction|]. apply G; [simpl; rewrite ?app_nil_r; apply le_n|discriminate].
  Qed.

  Lemma mem_run_tables bs (ls : list (list A)) :
    mem_read (mem_run bs (map WriteTable ls)) = concat ls.
  Proof.
    rewrite mem_order.
    - unfold written. rewrite map_map. simpl. rewrite map_id. reflexivity.
    - apply mem_safe_guarded. induction ls; simpl; auto.
  Qed.

  Lemma sort_mem_sink bs rpf local_sort rebatch tables :
    batching_ok rebatch ->
    exists ops, sort_ops KMem bs rpf sp local_sort rebatch tables = Some ops
      /\ mem_read (mem_run bs ops) = concat (map local_sort tables).
  Proof.
    intros Hb. unfold sort_ops.
    destruct (Nat.eqb_spec (length tables) 1) as [E|E].
    - destruct tables as [|t [|t' ts]]; try discriminate. simpl map.
      exists [WriteTable (local_sort t); Flush]. split; [reflexivity|].
      rewrite mem_order; [reflexivity|]. apply mem_safe_guarded. reflexivity.
    - unfold intermediate_runs. rewrite mem_run_tables. cbn [map].
      rewrite merge_single by apply Hb.
      eexists. split; [reflexivity|].
      rewrite mem_order.
      + rewrite written_singletons. apply Hb.
      + apply mem_safe_no_table. rewrite forallb_app. simpl. rewrite andb_true_r.
        apply forallb_forall. intros o Ho. apply in_map_iff in Ho. destruct Ho as (r & <- & _). reflexivity.
  Qed.
End SortP.

(* a concrete batching: chunks of n rows *)
Fixpoint chunk_fuel {A} (fuel n : nat) (l : list A) : list (list A) :=
  match fuel with
  | 0 => []
  | S k => match l with [] => [] | _ :: _ => firstn n l :: chunk_fuel k n (skipn n l) end
  end.
Definition chunk {A} (n : nat) (l : list A) : list (list A) := chunk_fuel (length l) n l.

Lemma chunk_ok {A} n : 1 <= n -> @batching_ok A (chunk n).
Proof.
  intros Hn l. unfold chunk.
  assert (G : forall fuel l, length l <= fuel ->
    concat (chunk_fuel fuel n l) = l /\ Forall (fun b : list A => b <> []) (chunk_fuel fuel n l)).
  { induction fuel as [|k IH]; intros [|x t] H; simpl; auto; try (simpl in H; lia).
    destruct (IH (skipn n (x :: t))) as [I1 I2].
    { rewrite skipn_length. cbn [length] in *. lia. }
    split.
    - rewrite I1. apply firstn_skipn.
    - constructor; auto. destruct n; [lia|]. simpl. discriminate. }
  apply G. lia.
Qed.
