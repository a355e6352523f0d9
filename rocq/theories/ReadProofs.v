(* C129: reading columns of a cache. *)
From Verif Require Import Prelude FloatModel FReportModel FBoxMain ReadModel ReadSpec.
From Coq Require Import String QArith.
Local Notation length := List.length (only parsing).
Local Notation concat := List.concat (only parsing).
Local Open Scope nat_scope.
Local Open Scope list_scope.

Lemma all_some_map {A B} (g : A -> option B) (h : A -> B) l : (forall x, In x l -> g x = Some (h x)) -> all_some (map g l) = Some (map h l).
Proof.
  induction l as [|x t IH]; intros H; [reflexivity|]. cbn [map all_some]. rewrite (H x) by (left; reflexivity).
  rewrite IH by (intros y Hy; apply H; right; exact Hy). reflexivity.
Qed.
Lemma all_some_none {A} (l : list (option A)) : In None l -> all_some l = None.
Proof.
  induction l as [|x t IH]; intros H; [destruct H|]. destruct x as [x|]; [|reflexivity]. cbn. destruct H as [H|H]; [discriminate|]. rewrite IH by exact H. reflexivity.
Qed.

Section Schema.
  Variable cols : list (string * ctype).
  Hypothesis Hnd : NoDup (map fst cols).
  Lemma col_type_In n t : In (n, t) cols -> col_type cols n = Some t.
  Proof.
    unfold col_type. induction cols as [|[m u] l IH]; intros H; [destruct H|]. cbn [find fst].
    destruct (String.eqb_spec m n) as [->|E].
    - destruct H as [H|H]; [injection H as ->; reflexivity|]. inversion Hnd as [|? ? N _]; subst. exfalso. apply N.
      change n with (fst (n, t)). apply in_map. exact H.
    - destruct H as [H|H]; [injection H as -> ->; congruence|]. apply IH; [inversion Hnd; assumption|exact H].
  Qed.
  Lemma col_type_some n t : col_type cols n = Some t -> In (n, t) cols.
  Proof.
    unfold col_type. destruct (find _ cols) as [[m u]|] eqn:E; [|discriminate]. intros H. injection H as <-.
    apply find_some in E. destruct E as [E1 E2]. cbn in E2. apply String.eqb_eq in E2. subst m. exact E1.
  Qed.
  Definition type_of (n : string) : ctype := match col_type cols n with Some t => t | None => TText end.
  Definition known (names : list string) : Prop := forall n, In n names -> In n (map fst cols).
  Lemma type_of_In n : In n (map fst cols) -> In (n, type_of n) cols.
  Proof.
    intros H. apply in_map_iff in H. destruct H as ([m t] & <- & H). unfold type_of. cbn. rewrite (col_type_In m t H). exact H.
  Qed.
  Lemma select_known names rows : known names -> select names (MkTable cols rows) = Some (MkTable (map (fun n => (n, type_of n)) names) rows).
  Proof.
    intros H. unfold select. cbn [tb_cols tb_rows]. rewrite (all_some_map _ (fun n => (n, type_of n))); [reflexivity|].
    intros n Hn. pose proof (type_of_In n (H n Hn)) as T. rewrite (col_type_In _ _ T). reflexivity.
  Qed.
  Lemma select_unknown names rows n : In n names -> ~ In n (map fst cols) -> select names (MkTable cols rows) = None.
  Proof.
    intros H N. unfold select. cbn [tb_cols]. rewrite all_some_none; [reflexivity|]. apply in_map_iff. exists n. split; [|exact H].
    destruct (col_type cols n) as [t|] eqn:E; [|reflexivity]. apply col_type_some in E. exfalso. apply N. change n with (fst (n, t)). apply in_map. exact E.
  Qed.
End Schema.

Section Read.
  Variable prune : list row -> (row -> bool) -> bool.
  Hypothesis Hprune : sound_pruning prune.
  Variable c : cache.
  Hypothesis Hc : cache_ok c.
  Lemma c_nd : NoDup (map fst (ca_schema c)).
  Proof. apply Hc. Qed.

  Definition kept_files (filt : option (row -> bool)) : list (list row) :=
    match filt with
    | Some f => if ca_memory c then ca_files c else filter (fun x => negb (prune x f)) (ca_files c)
    | None => ca_files c
    end.
  Definition cut (filt : option (row -> bool)) (x : list row) : list row := match filt with Some f => filter f x | None => x end.

  Lemma filter_none {A} (f : A -> bool) x : (forall r, In r x -> f r = false) -> filter f x = [].
  Proof.
    induction x as [|r t IH]; intros H; [reflexivity|]. cbn. rewrite H by (left; reflexivity). apply IH. intros y Hy. apply H. right. exact Hy.
  Qed.
  Lemma filter_all {A} (x : list A) : filter (fun _ => true) x = x.
  Proof. induction x as [|r t IH]; cbn; congruence. Qed.
  Lemma cut_rows filt : concat (map (cut filt) (kept_files filt)) = selected c filt.
  Proof.
    unfold selected, kept_files, cut. destruct filt as [f|]; [|rewrite map_id, filter_all; reflexivity].
    assert (E : forall l, concat (map (filter f) l) = filter f (concat l)) by (induction l as [|x t IH]; [reflexivity|]; cbn; rewrite filter_app, IH; reflexivity).
    change (filter (fun r => f r)) with (filter f). destruct (ca_memory c); [apply E|]. rewrite E. induction (ca_files c) as [|x t IH]; [reflexivity|]. cbn [filter concat].
    destruct (prune x f) eqn:P; cbn [negb concat]; rewrite !filter_app, IH; [|reflexivity].
    rewrite (filter_none f x (Hprune x f P)). reflexivity.
  Qed.
  Lemma tables_known names filt : known (ca_schema c) names ->
    iterate_tables prune c (Some names) filt
    = Some (map (fun x => MkTable (map (fun n => (n, type_of (ca_schema c) n)) names) (cut filt x)) (kept_files filt)).
  Proof.
    intros H. unfold iterate_tables. cbn zeta. unfold kept_files, cut. apply all_some_map. intros x _. apply select_known; [exact c_nd|assumption].
  Qed.
  Lemma tables_all filt : iterate_tables prune c None filt = Some (map (fun x => MkTable (ca_schema c) (cut filt x)) (kept_files filt)).
  Proof. unfold iterate_tables. cbn zeta. unfold kept_files, cut. apply all_some_map. intros x _. reflexivity. Qed.
  Lemma tables_unknown names filt n : In n names -> ~ In n (map fst (ca_schema c)) -> kept_files filt <> [] ->
    iterate_tables prune c (Some names) filt = None.
  Proof.
    intros Hn N Hk. unfold iterate_tables. cbn zeta. fold (kept_files filt). destruct (kept_files filt) as [|x t]; [congruence|].
    cbn [map all_some]. erewrite select_unknown; eauto.
  Qed.

  Theorem read_tables names filt : known (ca_schema c) names ->
    exists ts, iterate_tables prune c (Some names) filt = Some ts /\ concat (map tb_rows ts) = selected c filt /\
      forall t, In t ts -> map fst (tb_cols t) = names /\ forall n ty, In (n, ty) (tb_cols t) -> In (n, ty) (ca_schema c).
  Proof.
    intros H. rewrite tables_known by exact H. eexists. split; [reflexivity|]. split.
    - rewrite map_map. cbn [tb_rows]. rewrite <- cut_rows. reflexivity.
    - intros t Ht. apply in_map_iff in Ht. destruct Ht as (x & <- & _). cbn [tb_cols]. split; [rewrite map_map; apply map_id|].
      intros n ty Hn. apply in_map_iff in Hn. destruct Hn as (m & E & Hm). injection E as -> <-. apply type_of_In; [exact c_nd|apply H; exact Hm].
  Qed.

  Definition join_all (names : list string) : ctype :=
    match names with [] => TText | n :: t => fold_left join (map (type_of (ca_schema c)) t) (type_of (ca_schema c) n) end.
  Definition cells (names : list string) (r : row) : list cval := map (fun n => convert (join_all names) (r n)) names.

  Lemma stack_known names t : names <> [] ->
    column_stack t (map (fun n => (n, type_of (ca_schema c) n)) names) = Some (MkArray (join_all names) (map (cells names) (tb_rows t))).
  Proof.
    intros H. destruct names as [|n l]; [congruence|]. cbn [map column_stack].
    change (snd (n, type_of (ca_schema c) n)) with (type_of (ca_schema c) n).
    assert (E : map snd (map (fun n0 => (n0, type_of (ca_schema c) n0)) l) = map (type_of (ca_schema c)) l) by (rewrite map_map; reflexivity).
    rewrite E. f_equal. f_equal. apply map_ext. intros r. unfold cells. cbn [map fst join_all]. f_equal. rewrite map_map. reflexivity.
  Qed.
  Lemma arrays_known names filt : known (ca_schema c) names -> names <> [] ->
    iterate_arrays prune c (Some names) filt = Some (map (fun x => MkArray (join_all names) (map (cells names) (cut filt x))) (kept_files filt)).
  Proof.
    intros H Hne. unfold iterate_arrays. rewrite tables_known by exact H. rewrite map_map. apply all_some_map. intros x _. cbn [tb_cols].
    rewrite stack_known by exact Hne. reflexivity.
  Qed.

  Lemma numeric_known names : numeric_in c names -> known (ca_schema c) names.
  Proof. intros [_ H] n Hn. destruct (H n Hn) as (t & A & _). change n with (fst (n, t)). apply in_map. exact A. Qed.
  Lemma numeric_type names n : numeric_in c names -> In n names -> type_of (ca_schema c) n <> TText.
  Proof.
    intros [_ H] Hn. destruct (H n Hn) as (t & A & B). unfold type_of. rewrite (col_type_In _ c_nd n t A). exact B.
  Qed.
  Lemma join_cases l : forall a, a <> TText -> (forall t, In t l -> t <> TText) ->
    (fold_left join l a = TInt /\ a = TInt /\ forall t, In t l -> t = TInt)
    \/ (fold_left join l a = TFloat /\ (a <> TInt \/ exists t, In t l /\ t <> TInt)).
  Proof.
    induction l as [|x t IH]; intros a Ha Hl; cbn [fold_left].
    - destruct a; [left|right|congruence]; repeat split; auto; [intros ? []|left; discriminate].
    - assert (Hx : x <> TText) by (apply Hl; left; reflexivity).
      assert (Ht : forall u, In u t -> u <> TText) by (intros u Hu; apply Hl; right; exact Hu).
      destruct (IH (join a x)) as [(E & J & A)|(E & J)]; [destruct a, x; cbn; congruence|exact Ht| |].
      + left. destruct a, x; cbn in J; try discriminate; try congruence. repeat split; auto. intros u [<-|Hu]; auto.
      + right. split; [exact E|]. destruct J as [J|(u & Hu & N)]; [|right; exists u; split; [right|]; assumption].
        destruct a; [|left; discriminate|congruence]. destruct x; [cbn in J; congruence|right; exists TFloat; split; [left; reflexivity|discriminate]|congruence].
  Qed.
  Lemma join_numeric names : numeric_in c names ->
    (join_all names = TInt /\ integers c names) \/ (join_all names = TFloat /\ ~ integers c names).
  Proof.
    intros H. pose proof (numeric_known names H) as K. destruct names as [|n l]; [destruct H; congruence|]. cbn [join_all].
    destruct (join_cases (map (type_of (ca_schema c)) l) (type_of (ca_schema c) n)) as [(E & A & B)|(E & J)].
    - apply (numeric_type _ n H). left. reflexivity.
    - intros t Ht. apply in_map_iff in Ht. destruct Ht as (m & <- & Hm). apply (numeric_type _ m H). right. exact Hm.
    - left. split; [exact E|]. intros m [<-|Hm].
      + rewrite <- A. apply type_of_In; [exact c_nd|]. apply K. left. reflexivity.
      + rewrite <- (B (type_of (ca_schema c) m)) by (apply in_map; exact Hm). apply type_of_In; [exact c_nd|]. apply K. right. exact Hm.
    - right. split; [exact E|]. intros I.
      assert (T : forall m, In m (n :: l) -> type_of (ca_schema c) m = TInt).
      { intros m Hm. unfold type_of. rewrite (col_type_In _ c_nd m TInt (I m Hm)). reflexivity. }
      destruct J as [J|(t & Ht & N)]; [apply J, T; left; reflexivity|]. apply in_map_iff in Ht. destruct Ht as (m & <- & Hm).
      apply N, T. right. exact Hm.
  Qed.

  Lemma cell_number names r n : numeric_in c names -> In n names -> In r (concat (ca_files c)) -> integers c names \/ holdable (r n) ->
    same_number (convert (join_all names) (r n)) (r n).
  Proof.
    intros H Hn Hr Hh. destruct Hc as (_ & _ & Ht). destruct H as [Hne Hnum] eqn:EH. clear EH.
    destruct (Hnum n Hn) as (t & Hin & Hnt). specialize (Ht r n t Hr Hin).
    destruct (join_numeric names (conj Hne Hnum)) as [[E I]|[E I]]; rewrite E.
    - unfold same_number, convert. destruct t, (r n); cbn in *; try contradiction; try congruence; reflexivity.
    - destruct Hh as [Hh|Hh]; [contradiction|]. unfold same_number, convert. destruct (r n) as [z|q|s]; cbn in *; [apply srnd_int; exact Hh|reflexivity|].
      destruct t; try contradiction; congruence.
  Qed.

  Theorem read_arrays names filt : numeric_in c names ->
    exists arrs, iterate_arrays prune c (Some names) filt = Some arrs /\
      (forall a, In a arrs -> (ar_type a = TInt <-> integers c names) /\ (ar_type a = TFloat <-> ~ integers c names)) /\
      Forall2 (fun line r => length line = length names /\
          forall k n, nth_error names k = Some n -> exists v, nth_error line k = Some v /\ (integers c names \/ holdable (r n) -> same_number v (r n)))
        (concat (map ar_rows arrs)) (selected c filt).
  Proof.
    intros H. rewrite arrays_known by (apply numeric_known, H || apply H). eexists. split; [reflexivity|]. split.
    - intros a Ha. apply in_map_iff in Ha. destruct Ha as (x & <- & _). cbn [ar_type].
      destruct (join_numeric names H) as [[E I]|[E I]]; rewrite E; split; split; auto; congruence.
    - rewrite map_map. cbn [ar_rows].
      assert (E : forall l, concat (map (fun x => map (cells names) (cut filt x)) l) = map (cells names) (concat (map (cut filt) l))).
      { induction l as [|x t IH]; [reflexivity|]. cbn. rewrite map_app, IH. reflexivity. }
      rewrite E, cut_rows.
      assert (S : forall r, In r (selected c filt) -> In r (concat (ca_files c))) by (intros r Hr; unfold selected in Hr; apply filter_In in Hr; tauto).
      induction (selected c filt) as [|r t IH]; [constructor|]. cbn [map]. constructor; [|apply IH; intros q Hq; apply S; right; exact Hq].
      split; [unfold cells; apply map_length|]. intros k n Hk. exists (convert (join_all names) (r n)). split; [unfold cells; rewrite nth_error_map, Hk; reflexivity|].
      intros Hh. apply cell_number; auto; [eapply nth_error_In; exact Hk|apply S; left; reflexivity].
  Qed.

  Variable set_order : list string -> list string.
  Hypothesis Horder : set_orders set_order.

  Theorem read_both columns names filt : numeric_in c names -> known (ca_schema c) columns ->
    exists ps, iterate_tables_with_arrays prune set_order c (Some columns) (Some names) filt = Some ps /\
      iterate_arrays prune c (Some names) filt = Some (map snd ps) /\
      concat (map tb_rows (map fst ps)) = selected c filt /\
      forall t, In t (map fst ps) -> NoDup (map fst (tb_cols t)) /\ forall n, In n (map fst (tb_cols t)) <-> In n columns \/ In n names.
  Proof.
    intros H Hk. pose proof (numeric_known names H) as Hn. unfold iterate_tables_with_arrays. cbn zeta.
    destruct (Horder (columns ++ names)) as [O1 O2].
    set (all := set_order (columns ++ names)) in *.
    assert (Ka : known (ca_schema c) all).
    { intros n Hin. apply O2, in_app_or in Hin. destruct Hin; auto. }
    rewrite tables_known by exact Ka. rewrite map_map.
    set (cols := map (fun n => (n, type_of (ca_schema c) n)) all).
    assert (NC : NoDup (map fst cols)) by (unfold cols; rewrite map_map; cbn; rewrite map_id; exact O1).
    assert (MC : map fst cols = all) by (unfold cols; rewrite map_map; apply map_id).
    assert (Tc : forall n, In n names -> type_of cols n = type_of (ca_schema c) n).
    { intros n Hin. unfold type_of at 1. rewrite (col_type_In cols NC n (type_of (ca_schema c) n)); [reflexivity|].
      unfold cols. apply in_map_iff. exists n. split; [reflexivity|]. apply O2, in_or_app. right. exact Hin. }
    rewrite (all_some_map _ (fun x => (MkTable cols (cut filt x), MkArray (join_all names) (map (cells names) (cut filt x))))).
    - eexists. split; [reflexivity|]. split; [rewrite map_map; cbn [snd]; apply arrays_known; [exact Hn|apply H]|].
      split; [rewrite !map_map; cbn [fst tb_rows]; apply cut_rows|].
      intros t Ht. rewrite map_map in Ht. apply in_map_iff in Ht. destruct Ht as (x & <- & _). cbn [fst tb_cols]. split; [exact NC|].
      intros n. rewrite MC, O2. split; [apply in_app_or|apply in_or_app].
    - intros x _. destruct names as [|n0 l0] eqn:En; [destruct H; congruence|]. rewrite <- En in *.
      rewrite (select_known cols NC names (cut filt x)).
      2:{ intros n Hin. rewrite MC. apply O2, in_or_app. right. exact Hin. }
      cbn [tb_cols]. assert (E : map (fun n => (n, type_of cols n)) names = map (fun n => (n, type_of (ca_schema c) n)) names) by (apply map_ext_in; intros n Hin; rewrite Tc by exact Hin; reflexivity).
      rewrite E, stack_known by (apply H). reflexivity.
  Qed.

  Theorem read_no_numeric columns filt : ca_memory c = true ->
    iterate_tables_with_arrays prune set_order c columns None filt = None /\
    iterate_tables_with_arrays prune set_order c columns (Some []) filt = None.
  Proof.
    intros M. unfold iterate_tables_with_arrays. cbn zeta.
    assert (G : forall names, match iterate_tables prune c (Some names) filt with
      | Some ts => all_some (map (fun _ : table => @None (table * array)) ts) | None => None end = None).
    { intros names. destruct (iterate_tables prune c (Some names) filt) as [ts|] eqn:E; [|reflexivity].
      assert (L : ts <> []).
      { destruct (proj1 Hc M) as []. unfold iterate_tables in E. cbn zeta in E. rewrite M in E.
        assert (F : match filt with Some _ => ca_files c | None => ca_files c end = ca_files c) by (destruct filt; reflexivity).
        rewrite F in E. pose proof (proj1 Hc M) as L. destruct (ca_files c) as [|x l]; [discriminate|]. cbn [map all_some] in E.
        destruct (select _ _); [|discriminate]. destruct (all_some _); [|discriminate]. injection E as <-. discriminate. }
      destruct ts; [congruence|reflexivity]. }
    split; apply G.
  Qed.

  Theorem read_counts : count_rows c = length (selected c None) /\
    (forall columns, known (ca_schema c) columns -> exists ts, iterate_tables prune c (Some columns) None = Some ts /\ length ts = count_tables c).
  Proof.
    split; [unfold count_rows, selected; rewrite filter_all; reflexivity|].
    intros columns K. rewrite tables_known by exact K. eexists. split; [reflexivity|]. rewrite map_length. unfold kept_files, count_tables.
    destruct (ca_memory c) eqn:M; [apply (proj1 Hc M)|reflexivity].
  Qed.
End Read.

(* the same rows, stored differently *)
Theorem read_storage prune prune' c c' names filt : sound_pruning prune -> sound_pruning prune' -> cache_ok c -> cache_ok c' ->
  ca_schema c = ca_schema c' -> concat (ca_files c) = concat (ca_files c') -> numeric_in c names ->
  exists a a', iterate_arrays prune c (Some names) filt = Some a /\ iterate_arrays prune' c' (Some names) filt = Some a' /\
    concat (map ar_rows a) = concat (map ar_rows a') /\ forall x x', In x a -> In x' a' -> ar_type x = ar_type x'.
Proof.
  intros Hp Hp' Hc Hc' Es Er Hn.
  assert (Hn' : numeric_in c' names) by (unfold numeric_in in *; rewrite <- Es; exact Hn).
  rewrite (arrays_known prune c Hc names filt (numeric_known c names Hn) (proj1 Hn)).
  rewrite (arrays_known prune' c' Hc' names filt (numeric_known c' names Hn') (proj1 Hn')).
  assert (Ej : join_all c names = join_all c' names) by (unfold join_all; rewrite Es; reflexivity).
  assert (Ec : forall r, cells c names r = cells c' names r) by (intros r; unfold cells; rewrite Ej; reflexivity).
  do 2 eexists. split; [reflexivity|]. split; [reflexivity|]. split.
  - rewrite !map_map. cbn [ar_rows].
    assert (E : forall d l, concat (map (fun x => map (cells d names) (cut filt x)) l) = map (cells d names) (concat (map (cut filt) l))).
    { induction l as [|x t IH]; [reflexivity|]. cbn. rewrite map_app, IH. reflexivity. }
    rewrite !E, (cut_rows prune Hp c), (cut_rows prune' Hp' c'). unfold selected. rewrite Er. apply map_ext. exact Ec.
  - intros x x' Hx Hx'. apply in_map_iff in Hx, Hx'. destruct Hx as (? & <- & _), Hx' as (? & <- & _). cbn [ar_type]. exact Ej.
Qed.
