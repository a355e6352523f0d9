(* Proofs about paginate_index. *)
From Verif Require Import Prelude CacheModel CacheSpec.

Lemma dedup_sorted_In l x : In x (dedup_sorted l) <-> In x l.
Proof.
  induction l as [|a t IH]; [tauto|].
  cbn [dedup_sorted]. destruct t as [|b t']; [tauto|].
  destruct (Z.eqb_spec a b) as [->|E].
  - rewrite IH. simpl. tauto.
  - change (In x (a :: dedup_sorted (b :: t')) <-> In x (a :: b :: t')).
    simpl In at 1. rewrite IH. simpl. tauto.
Qed.

Lemma dedup_sorted_lt l :
  StronglySorted (leP Z.leb) l -> StronglySorted Z.lt (dedup_sorted l).
Proof.
  induction l as [|a t IH]; intros H; [constructor|].
  inversion H as [|? ? Hs Hf]; subst.
  cbn [dedup_sorted]. destruct t as [|b t']; [repeat constructor|].
  specialize (IH Hs). destruct (Z.eqb_spec a b) as [->|E]; [exact IH|].
  constructor; [exact IH|]. apply Forall_forall. intros x Hx.
  apply (proj1 (dedup_sorted_In _ _)) in Hx. rewrite Forall_forall in Hf.
  assert (Hab : (a <= b)%Z) by (apply Z.leb_le, Hf; left; reflexivity).
  destruct Hx as [<-|Hx]; [lia|].
  inversion Hs as [|? ? _ Hf']; subst. rewrite Forall_forall in Hf'.
  pose proof (proj1 (Z.leb_le _ _) (Hf' x Hx)). lia.
Qed.

Lemma sorted_lt_NoDup l : StronglySorted Z.lt l -> NoDup l.
Proof.
  induction 1 as [|a t Hs IH Hf]; constructor; auto.
  intros Hin. rewrite Forall_forall in Hf. specialize (Hf a Hin). lia.
Qed.

Section Page.
  Context {A : Type}.
  Variable key : A -> Z.

  Lemma sorted_unique_lt t : StronglySorted Z.lt (sorted_unique key t).
  Proof.
    apply dedup_sorted_lt. apply isort_sorted; intros; lia.
  Qed.

  Lemma sorted_unique_In t x : In x (sorted_unique key t) <-> In x (map key t).
  Proof.
    unfold sorted_unique. rewrite dedup_sorted_In.
    split; apply Permutation_in; [symmetry|]; apply isort_perm; intros; lia.
  Qed.

  Lemma sorted_unique_perm t : Permutation (sorted_unique key t) (distinct_keys key t).
  Proof.
    apply NoDup_Permutation.
    - apply sorted_lt_NoDup, sorted_unique_lt.
    - apply NoDup_nodup.
    - intros x. unfold distinct_keys. rewrite sorted_unique_In, nodup_In. tauto.
  Qed.

  Definition klt (v k : Z) : bool := (k <? v)%Z.

  Lemma nth_rank u k w v :
    StronglySorted Z.lt u -> nth_error u k = Some w -> In v u ->
    (w <=? v)%Z = (k <=? countb (klt v) u).
  Proof.
    intros Hs Hn Hv.
    destruct (nth_error_split u k Hn) as (l1 & l2 & -> & Hk).
    apply StronglySorted_app in Hs. destruct Hs as (_ & Hs2 & Hx).
    inversion Hs2 as [|? ? _ Hf]; subst. rewrite Forall_forall in Hf.
    rewrite countb_app. unfold countb at 2. cbn [filter].
    destruct (Z.leb_spec w v) as [E|E].
    - symmetry. apply Nat.leb_le.
      assert (countb (klt v) l1 = length l1).
      { unfold countb. rewrite filter_all; [reflexivity|].
        intros x Hx1. specialize (Hx x w Hx1 (or_introl eq_refl)). unfold klt. lia. }
      lia.
    - symmetry. apply Nat.leb_gt.
      assert (Hin : In v l1).
      { apply in_app_iff in Hv. destruct Hv as [Hv|[Hv|Hv]]; auto; [lia|].
        specialize (Hf v Hv). lia. }
      unfold klt at 2. replace (w <? v)%Z with false by lia.
      rewrite (filter_none _ l2) by (intros x Hx2; specialize (Hf x Hx2); unfold klt; lia).
      simpl. unfold countb. clear -Hin.
      assert (forall l, In v l -> length (filter (klt v) l) < length l).
      { induction l as [|a t IH]; simpl; [tauto|].
        intros [->|Hin']; unfold klt at 1.
        - rewrite Z.ltb_irrefl. pose proof (countb_le_length (klt v) t). unfold countb in *. lia.
        - specialize (IH Hin'). destruct (a <? v)%Z; simpl; lia. }
      specialize (H l1 Hin). lia.
  Qed.

  Lemma countb_lt_length u v : In v u -> countb (klt v) u < length u.
  Proof.
    intros Hin. unfold countb. induction u as [|a t IH]; simpl; [destruct Hin|].
    destruct Hin as [->|Hin]; unfold klt at 1.
    - rewrite Z.ltb_irrefl. pose proof (countb_le_length (klt v) t). unfold countb in *. lia.
    - specialize (IH Hin). destruct (a <? v)%Z; simpl; lia.
  Qed.

  Lemma rank_local t r : countb (klt (key r)) (distinct_keys key t)
                         = countb (klt (key r)) (sorted_unique key t).
  Proof. apply countb_perm. symmetry. apply sorted_unique_perm. Qed.

  Definition nkeys (before : list (list A)) : nat :=
    list_sum_nat (map (fun f => length (distinct_keys key f)) before).

  Lemma nkeys_snoc before f : nkeys (before ++ [f]) = nkeys before + length (distinct_keys key f).
  Proof. unfold nkeys. rewrite map_app, list_sum_nat_app. simpl. lia. Qed.

  Lemma rank_ge before f r : nkeys before <= rank_in key before f r.
  Proof. unfold rank_in, nkeys. lia. Qed.

  Lemma rank_lt before f r : In r f ->
    rank_in key before f r < nkeys before + length (distinct_keys key f).
  Proof.
    intros Hin. unfold rank_in. fold (nkeys before).
    pose proof (countb_lt_length (distinct_keys key f) (key r)) as H.
    unfold klt in H. assert (In (key r) (distinct_keys key f)).
    { unfold distinct_keys. apply nodup_In. apply in_map. exact Hin. }
    specialize (H H0). unfold countb in *. lia.
  Qed.

  Lemma page_above lo hi rest : forall before,
    hi <= nkeys before -> rows_in_page key lo hi before rest = [].
  Proof.
    induction rest as [|f rest IH]; intros before H; [reflexivity|].
    cbn [rows_in_page]. rewrite IH by (rewrite nkeys_snoc; lia). rewrite app_nil_r.
    apply filter_none. intros r _. pose proof (rank_ge before f r). lia.
  Qed.

  Lemma paginate_loop_spec lo lim tables : forall before,
    concat (paginate_loop key lo lim (nkeys before) tables)
    = rows_in_page key lo (lo + lim) before tables.
  Proof.
    induction tables as [|tbl rest IH]; intros before; [reflexivity|].
    cbn [paginate_loop rows_in_page]. destruct tbl as [|r0 tl0].
    - simpl filter. rewrite app_nil_l. rewrite <- IH. rewrite nkeys_snoc. cbn [distinct_keys map nodup length].
      rewrite Nat.add_0_r. reflexivity.
    - set (tbl := r0 :: tl0). cbv zeta.
      assert (Hlen : length (sorted_unique key tbl) = length (distinct_keys key tbl))
        by (apply Permutation_length, sorted_unique_perm).
      rewrite Hlen. rewrite <- nkeys_snoc.
      destruct (Nat.leb_spec (nkeys (before ++ [tbl])) lo) as [E1|E1].
      + rewrite IH.
        rewrite (filter_none _ tbl).
        * reflexivity.
        * intros r Hr. pose proof (rank_lt before tbl r Hr). rewrite nkeys_snoc in E1. lia.
      + destruct (Nat.leb_spec (lo + lim) (nkeys before)) as [E2|E2].
        * rewrite page_above by (rewrite nkeys_snoc; lia). rewrite app_nil_r. symmetry.
          apply filter_none. intros r Hr. pose proof (rank_ge before tbl r). lia.
        * cbn [concat]. rewrite IH. f_equal.
          apply filter_ext_in. intros r Hr.
          assert (Hu : In (key r) (sorted_unique key tbl)) by (apply sorted_unique_In, in_map, Hr).
          assert (Hrank : rank_in key before tbl r
                          = nkeys before + countb (klt (key r)) (sorted_unique key tbl)).
          { unfold rank_in. rewrite <- rank_local. reflexivity. }
          rewrite Hrank. rewrite nkeys_snoc in *.
          pose proof (countb_lt_length _ _ Hu) as Hc.
          f_equal.
          -- destruct ((nkeys before <? lo) && (lo <? nkeys before + length (distinct_keys key tbl))) eqn:C.
             ++ destruct (nth_error (sorted_unique key tbl) (lo - nkeys before)) as [v|] eqn:En.
                ** rewrite (nth_rank _ _ _ _ (sorted_unique_lt tbl) En Hu). lia.
                ** apply nth_error_None in En. lia.
             ++ lia.
          -- destruct ((nkeys before <? lo + lim)
                       && (lo + lim <? nkeys before + length (distinct_keys key tbl))) eqn:C.
             ++ destruct (nth_error (sorted_unique key tbl) (lo + lim - nkeys before)) as [v|] eqn:En.
                ** pose proof (nth_rank _ _ _ _ (sorted_unique_lt tbl) En Hu). lia.
                ** apply nth_error_None in En. lia.
             ++ lia.
  Qed.

  Lemma nkeys_le_rows ts : nkeys ts <= length (concat ts).
  Proof.
    induction ts as [|t ts IH]; simpl; [unfold nkeys; simpl; lia|].
    unfold nkeys in *. simpl. rewrite app_length.
    assert (length (distinct_keys key t) <= length t).
    { rewrite <- (map_length key t). apply NoDup_incl_length; [apply NoDup_nodup|].
      intros x Hx. apply nodup_In in Hx. exact Hx. }
    lia.
  Qed.

  Lemma filtered_le (m : A -> bool) ts : length (concat (map (filter m) ts)) <= length (concat ts).
  Proof.
    induction ts as [|t ts IH]; simpl; [lia|].
    rewrite !app_length. pose proof (countb_le_length m t). unfold countb in *. lia.
  Qed.

  Lemma page_all lo hi rest : forall before,
    lo <= nkeys before -> nkeys (before ++ rest) <= hi ->
    rows_in_page key lo hi before rest = concat rest.
  Proof.
    induction rest as [|f rest IH]; intros before H1 H2; [reflexivity|].
    cbn [rows_in_page concat].
    assert (Happ : before ++ f :: rest = (before ++ [f]) ++ rest) by (rewrite <- app_assoc; reflexivity).
    rewrite IH; [|rewrite nkeys_snoc; lia|rewrite <- Happ; exact H2].
    f_equal. apply filter_all. intros r Hr.
    pose proof (rank_ge before f r). pose proof (rank_lt before f r Hr).
    rewrite Happ in H2. unfold nkeys in H2. rewrite map_app, list_sum_nat_app in H2.
    fold (nkeys (before ++ [f])) in H2. rewrite nkeys_snoc in H2. lia.
  Qed.

  Lemma page_below lo hi rest : forall before,
    nkeys (before ++ rest) <= lo -> rows_in_page key lo hi before rest = [].
  Proof.
    induction rest as [|f rest IH]; intros before H; [reflexivity|].
    cbn [rows_in_page].
    assert (Happ : before ++ f :: rest = (before ++ [f]) ++ rest) by (rewrite <- app_assoc; reflexivity).
    rewrite IH by (rewrite <- Happ; exact H). rewrite app_nil_r.
    apply filter_none. intros r Hr. pose proof (rank_lt before f r Hr).
    rewrite Happ in H. unfold nkeys in H. rewrite map_app, list_sum_nat_app in H.
    fold (nkeys (before ++ [f])) in H. rewrite nkeys_snoc in H. lia.
  Qed.

  Lemma paginate_some m n offset tables : n <> 0 ->
    concat (paginate_index key m (Some n) offset tables)
    = rows_in_page key offset (offset + n) [] (map (filter m) tables).
  Proof.
    intros Hn. unfold paginate_index. destruct n as [|n']; [congruence|]. set (n := S n') in *.
    pose proof (nkeys_le_rows (map (filter m) tables)) as H1.
    pose proof (filtered_le m tables) as H2.
    destruct (Nat.eqb offset 0 && (length (concat tables) <=? n)) eqn:E.
    - symmetry. apply page_all; [unfold nkeys; simpl; lia|]. simpl app. lia.
    - destruct (Nat.leb_spec (length (concat tables)) offset) as [E2|E2].
      + symmetry. apply page_below. simpl app. lia.
      + apply (paginate_loop_spec offset n (map (filter m) tables) []).
  Qed.

  Lemma paginate_none m limit offset tables hi : limit = None \/ limit = Some 0 ->
    length (concat tables) <= hi ->
    concat (paginate_index key m limit offset tables)
    = rows_in_page key offset hi [] (map (filter m) tables).
  Proof.
    intros Hlim Hhi. unfold paginate_index.
    pose proof (nkeys_le_rows (map (filter m) tables)) as H1.
    pose proof (filtered_le m tables) as H2.
    assert (Hpage : forall rest before h1 h2, nkeys (before ++ rest) <= h1 -> nkeys (before ++ rest) <= h2 ->
      rows_in_page key offset h1 before rest = rows_in_page key offset h2 before rest).
    { induction rest as [|f rest IH]; intros before h1 h2 A1 A2; [reflexivity|].
      cbn [rows_in_page].
      assert (Happ : before ++ f :: rest = (before ++ [f]) ++ rest) by (rewrite <- app_assoc; reflexivity).
      rewrite Happ in A1, A2. rewrite (IH _ h1 h2 A1 A2). f_equal.
      apply filter_ext_in. intros r Hr. pose proof (rank_lt before f r Hr).
      unfold nkeys in A1, A2. rewrite map_app, list_sum_nat_app in A1, A2.
      fold (nkeys (before ++ [f])) in A1, A2. rewrite nkeys_snoc in A1, A2. lia. }
    replace (match limit with None | Some 0 => length (concat tables) | Some (S _ as n) => n end)
      with (length (concat tables)) by (destruct Hlim as [-> | ->]; reflexivity).
    destruct (Nat.eqb offset 0 && (length (concat tables) <=? length (concat tables))) eqn:E.
    - symmetry. apply page_all; [unfold nkeys; simpl; lia|]. simpl app. lia.
    - destruct (Nat.leb_spec (length (concat tables)) offset) as [E2|E2].
      + symmetry. apply page_below. simpl app. lia.
      + pose proof (paginate_loop_spec offset (length (concat tables)) (map (filter m) tables) []) as HL.
        change (nkeys []) with 0 in HL. rewrite HL.
        apply Hpage; simpl app; lia.
  Qed.

  (* pages partition *)
  Lemma page_split lo mid hi rest : forall before,
    lo <= mid -> mid <= hi ->
    Permutation (rows_in_page key lo hi before rest)
                (rows_in_page key lo mid before rest ++ rows_in_page key mid hi before rest).
  Proof.
    induction rest as [|f rest IH]; intros before H1 H2; [constructor|].
    cbn [rows_in_page]. rewrite (IH (before ++ [f]) H1 H2).
    set (R := rank_in key before f).
    rewrite <- !app_assoc.
    assert (P : Permutation (filter (fun r => (lo <=? R r) && (R r <? hi)) f)
              (filter (fun r => (lo <=? R r) && (R r <? mid)) f
               ++ filter (fun r => (mid <=? R r) && (R r <? hi)) f)).
    { generalize R. clear IH R. intros R. induction f as [|r f IHf]; [constructor|]. simpl.
      destruct (Nat.leb_spec lo (R r)), (Nat.ltb_spec (R r) hi), (Nat.ltb_spec (R r) mid),
          (Nat.leb_spec mid (R r)); simpl; try lia; auto.
      apply Permutation_cons_app. exact IHf. }
    rewrite P. rewrite <- app_assoc. apply Permutation_app_head.
    rewrite Permutation_app_comm, <- app_assoc. apply Permutation_app_head.
    apply Permutation_app_comm.
  Qed.

  Lemma pages_partition n k ts : 
    Permutation (rows_in_page key 0 (k * n) [] ts)
      (concat (map (fun i => rows_in_page key (i * n) (i * n + n) [] ts) (seq 0 k))).
  Proof.
    induction k as [|k IH].
    - simpl. rewrite page_above; [constructor|unfold nkeys; simpl; lia].
    - rewrite seq_S, map_app, concat_app. simpl concat. rewrite app_nil_r. simpl plus at 2.
      rewrite (page_split 0 (k * n) (S k * n)) by (simpl; lia).
      apply Permutation_app; [exact IH|]. simpl. rewrite Nat.add_comm. reflexivity.
  Qed.

  Lemma in_page_iff lo hi rest r : forall before,
    In r (rows_in_page key lo hi before rest) <->
    exists i f, nth_error rest i = Some f /\ In r f /\
      lo <= rank_in key (before ++ firstn i rest) f r < hi.
  Proof.
    induction rest as [|f rest IH]; intros before.
    - simpl. split; [tauto|]. intros (i & f & H & _). destruct i; discriminate.
    - cbn [rows_in_page]. rewrite in_app_iff, IH, filter_In. split.
      + intros [[H1 H2]|(i & g & H1 & H2 & H3)].
        * exists 0, f. simpl firstn. rewrite app_nil_r. repeat split; auto; lia.
        * exists (S i), g. cbn [nth_error firstn]. rewrite <- app_assoc in H3. auto.
      + intros ([|i] & g & H1 & H2 & H3); cbn [nth_error firstn] in *.
        * injection H1 as <-. rewrite app_nil_r in H3. left. split; auto. lia.
        * right. exists i, g. rewrite <- app_assoc. auto.
  Qed.

  (* a key is never split over two pages *)
  Lemma same_key_same_page lo hi ts a b :
    aligned key ts -> In a (rows_in_page key lo hi [] ts) -> In b (concat ts) -> key a = key b ->
    In b (rows_in_page key lo hi [] ts).
  Proof.
    intros Hal Ha Hb Hk. apply in_page_iff in Ha. destruct Ha as (i & f & Hi & Haf & Hr).
    apply in_concat in Hb. destruct Hb as (g & Hg & Hbg).
    apply In_nth_error in Hg. destruct Hg as (j & Hj).
    assert (i = j) by (eapply Hal; eauto). subst j.
    rewrite Hi in Hj. injection Hj as <-.
    apply in_page_iff. exists i, f. repeat split; auto; unfold rank_in in *; rewrite <- Hk; lia.
  Qed.

  Lemma countb_strict u v v' : In v u -> (v < v')%Z -> countb (klt v) u < countb (klt v') u.
  Proof.
    intros Hin Hlt. unfold countb.
    induction u as [|a t IH]; [destruct Hin|]. simpl. change (klt v a) with (a <? v)%Z. change (klt v' a) with (a <? v')%Z.
    assert (M : length (filter (klt v) t) <= length (filter (klt v') t))
      by (apply countb_mono; unfold klt; intros; lia).
    destruct Hin as [->|Hin].
    - rewrite Z.ltb_irrefl. replace (v <? v')%Z with true by lia. simpl. lia.
    - specialize (IH Hin). destruct (a <? v)%Z eqn:E1, (a <? v')%Z eqn:E2; simpl; lia.
  Qed.

  Lemma nodup_app_length (l1 l2 : list Z) :
    length (nodup Z.eq_dec (l1 ++ l2)) <= length (nodup Z.eq_dec l1) + length (nodup Z.eq_dec l2).
  Proof.
    rewrite <- app_length. apply NoDup_incl_length; [apply NoDup_nodup|].
    intros x. rewrite nodup_In, !in_app_iff, !nodup_In. tauto.
  Qed.

  Lemma NoDup_map_inj {B C} (g : B -> C) l :
    (forall x y, In x l -> In y l -> g x = g y -> x = y) -> NoDup l -> NoDup (map g l).
  Proof.
    intros Hi. induction 1 as [|x l Hx Hnd IH]; simpl; constructor.
    - rewrite in_map_iff. intros (y & Hy & Hin). apply Hx.
      rewrite (Hi x y); auto; [left; auto|right; auto].
    - apply IH. intros; apply Hi; auto; right; auto.
  Qed.

  Lemma frag_keys_bound lo hi before f :
    length (distinct_keys key (filter (fun r => (lo <=? rank_in key before f r)
                                                && (rank_in key before f r <? hi)) f))
    <= Nat.min hi (nkeys before + length (distinct_keys key f)) - Nat.max lo (nkeys before).
  Proof.
    set (K := distinct_keys key (filter _ f)).
    set (loc := fun v => nkeys before + countb (klt v) (distinct_keys key f)).
    assert (HK : forall v, In v K -> In v (distinct_keys key f) /\ lo <= loc v < hi).
    { intros v Hv. unfold K, distinct_keys in Hv. apply nodup_In in Hv. apply in_map_iff in Hv.
      destruct Hv as (r & <- & Hr). apply filter_In in Hr. destruct Hr as [Hr Hc]. split.
      - apply nodup_In, in_map, Hr.
      - unfold rank_in in Hc. fold (nkeys before) in Hc. unfold loc, klt. lia. }
    rewrite <- (map_length loc K).
    replace (Nat.min _ _ - _) with (length (seq (Nat.max lo (nkeys before))
      (Nat.min hi (nkeys before + length (distinct_keys key f)) - Nat.max lo (nkeys before))))
      by apply seq_length.
    apply NoDup_incl_length.
    - apply NoDup_map_inj; [|apply NoDup_nodup].
      intros x y Hx Hy E. unfold loc in E.
      destruct (Z.lt_trichotomy x y) as [H|[H|H]]; auto.
      + pose proof (countb_strict _ x y (proj1 (HK x Hx)) H). lia.
      + pose proof (countb_strict _ y x (proj1 (HK y Hy)) H). lia.
    - intros p Hp. apply in_map_iff in Hp. destruct Hp as (v & <- & Hv).
      destruct (HK v Hv) as [H1 H2]. apply in_seq.
      pose proof (countb_lt_length _ _ H1). unfold loc in *. lia.
  Qed.

  Lemma page_keys_bound lo hi rest : forall before,
    length (distinct_keys key (rows_in_page key lo hi before rest)) <= hi - Nat.max lo (nkeys before).
  Proof.
    induction rest as [|f rest IH]; intros before; [simpl; lia|].
    cbn [rows_in_page]. unfold distinct_keys at 1. rewrite map_app.
    eapply Nat.le_trans; [apply nodup_app_length|].
    pose proof (frag_keys_bound lo hi before f) as H1.
    specialize (IH (before ++ [f])). rewrite nkeys_snoc in IH.
    unfold distinct_keys in *. lia.
  Qed.

  (* pages in order when each fragment is sorted by key *)
  Lemma rank_mono before f a b : (key a <= key b)%Z -> rank_in key before f a <= rank_in key before f b.
  Proof.
    intros H. unfold rank_in. apply Nat.add_le_mono_l. apply countb_mono. intros; lia.
  Qed.

  Lemma filter_split_sorted (R : A -> nat) lo mid hi f :
    lo <= mid -> mid <= hi -> StronglySorted (fun a b => R a <= R b) f ->
    filter (fun r => (lo <=? R r) && (R r <? hi)) f
    = filter (fun r => (lo <=? R r) && (R r <? mid)) f ++ filter (fun r => (mid <=? R r) && (R r <? hi)) f.
  Proof.
    intros H1 H2. induction 1 as [|a t Hs IH Hf]; [reflexivity|].
    simpl. rewrite IH. rewrite Forall_forall in Hf.
    destruct (Nat.leb_spec mid (R a)) as [E|E].
    - assert (Hnil : filter (fun r => (lo <=? R r) && (R r <? mid)) t = []).
      { apply filter_none. intros x Hx. specialize (Hf x Hx). lia. }
      replace ((lo <=? R a) && (R a <? mid)) with false by lia.
      replace (lo <=? R a) with true by lia. simpl.
      destruct (R a <? hi); rewrite Hnil; reflexivity.
    - replace (R a <? hi) with true by lia. replace (R a <? mid) with true by lia. simpl.
      destruct (lo <=? R a); reflexivity.
  Qed.

  Lemma page_split_sorted lo mid hi rest : forall before,
    lo <= mid -> mid <= hi ->
    Forall (StronglySorted (fun a b => (key a <= key b)%Z)) rest ->
    rows_in_page key lo hi before rest
    = rows_in_page key lo mid before rest ++ rows_in_page key mid hi before rest.
  Proof.
    induction rest as [|f rest IH]; intros before H1 H2 Hs; [reflexivity|].
    inversion Hs as [|? ? Hf Hr]; subst. cbn [rows_in_page].
    rewrite (IH (before ++ [f]) H1 H2 Hr).
    rewrite (filter_split_sorted (rank_in key before f) lo mid hi f H1 H2).
    2:{ assert (G : forall g, StronglySorted (fun a b => (key a <= key b)%Z) g ->
              StronglySorted (fun a b => rank_in key before f a <= rank_in key before f b) g).
        { induction 1 as [|a t Ht IHt Hall]; constructor; auto.
          rewrite Forall_forall in *. intros x Hx. apply rank_mono, Hall, Hx. }
        apply G, Hf. }
    rewrite <- !app_assoc. f_equal.
    destruct (Nat.le_gt_cases mid (nkeys (before ++ [f]))) as [E|E].
    - rewrite (page_above lo mid rest (before ++ [f]) E). rewrite app_nil_l. reflexivity.
    - rewrite (filter_none (fun r => (mid <=? rank_in key before f r) && (rank_in key before f r <? hi)) f).
      + reflexivity.
      + intros r Hin. pose proof (rank_lt before f r Hin). rewrite nkeys_snoc in E. lia.
  Qed.

  Lemma pages_in_order n k ts :
    Forall (StronglySorted (fun a b => (key a <= key b)%Z)) ts ->
    rows_in_page key 0 (k * n) [] ts
    = concat (map (fun i => rows_in_page key (i * n) (i * n + n) [] ts) (seq 0 k)).
  Proof.
    intros Hs. induction k as [|k IH].
    - simpl. apply page_above. unfold nkeys; simpl; lia.
    - rewrite seq_S, map_app, concat_app. simpl concat. rewrite app_nil_r. simpl plus at 1.
      rewrite (page_split_sorted 0 (k * n) (S k * n)); auto; try (simpl; lia).
      rewrite IH. f_equal. simpl. rewrite Nat.add_comm. reflexivity.
  Qed.

  Lemma page_whole hi ts : length (concat ts) <= hi -> rows_in_page key 0 hi [] ts = concat ts.
  Proof.
    intros H. apply page_all; [unfold nkeys; simpl; lia|]. simpl app.
    pose proof (nkeys_le_rows ts). lia.
  Qed.
End Page.
