(* Proofs about the directories a path with * and ? reaches (C119). *)
From Verif Require Import Prelude CacheModel CacheSpec PathModel PathSpec PathProofs PathMain.
From Coq Require Import Ascii.
Local Open Scope nat_scope.
Local Open Scope list_scope.

Lemma suffixes_in (s r : list ascii) : In r (suffixes s) <-> exists a, s = a ++ r.
Proof.
  induction s as [|c s IH]; cbn [suffixes In].
  - split; [intros [<-|[]]; exists []; reflexivity|]. intros [a H]. left. symmetry in H. apply app_eq_nil in H. symmetry. apply H.
  - rewrite IH. split.
    + intros [<-|[a ->]]; [exists []; reflexivity|exists (c :: a); reflexivity].
    + intros [[|x a] H]; [left; exact H|right]. injection H as <- H. exists a. exact H.
Qed.

Lemma star_split p s : stands_for ("*"%char :: p) s <-> exists a r, s = a ++ r /\ stands_for p r.
Proof.
  split.
  - intros H. remember ("*"%char :: p) as q eqn:E. revert p E. induction H; intros p' E; try discriminate.
    + injection E as <-. exists [], s. split; [reflexivity|assumption].
    + injection E as <-. destruct (IHstands_for p eq_refl) as (a & r & -> & Hr). exists (c :: a), r. split; [reflexivity|exact Hr].
    + injection E as -> <-. congruence.
  - intros (a & r & -> & H). induction a as [|c a IH]; [apply sf_none; exact H|apply sf_more; exact IH].
Qed.

Lemma tokens_stands n p s : length p <= n -> ~ In "["%char p -> (tokens_match (tokens n p) s = true <-> stands_for p s).
Proof.
  revert p s. induction n as [|n IH]; intros p s Hl Hb.
  - destruct p; [|cbn in Hl; lia]. cbn. destruct s; split; intros H; try discriminate; try constructor. inversion H.
  - destruct p as [|c p]; [cbn; destruct s; split; intros H; try discriminate; try constructor; inversion H|].
    cbn in Hl. assert (Hb' : ~ In "["%char p) by (intros X; apply Hb; right; exact X).
    cbn [tokens]. destruct (Ascii.eqb_spec c "*") as [->|N1].
    { cbn [tokens_match]. rewrite existsb_exists, star_split. split.
      - intros (r & Hr & Hm). apply suffixes_in in Hr. destruct Hr as [a ->]. exists a, r. split; [reflexivity|]. apply IH; [lia|assumption|assumption].
      - intros (a & r & -> & Hm). exists r. split; [apply suffixes_in; exists a; reflexivity|]. apply IH; [lia|assumption|assumption]. }
    destruct (Ascii.eqb_spec c "?") as [->|N2].
    { cbn [tokens_match]. destruct s as [|x s]; [split; [discriminate|intros H; inversion H]|].
      cbn [token_takes andb]. rewrite IH by (assumption || lia). split; [apply sf_any|].
      intros H. inversion H; subst; [assumption|congruence]. }
    destruct (Ascii.eqb_spec c "[") as [->|N3]; [exfalso; apply Hb; left; reflexivity|].
    cbn [tokens_match]. destruct s as [|x s]; [split; [discriminate|intros H; inversion H; congruence]|].
    cbn [token_takes]. rewrite andb_true_iff, IH by (assumption || lia). rewrite Ascii.eqb_eq. split.
    + intros [-> H]. apply sf_same; assumption.
    + intros H. inversion H; subst; try congruence. split; [reflexivity|assumption].
Qed.

Lemma hidden_dot n : hidden n = true <-> exists r, n = "."%char :: r.
Proof.
  destruct n as [|c n]; cbn; [split; [discriminate|intros [r H]; discriminate]|].
  rewrite Ascii.eqb_eq. split; [intros ->; exists n; reflexivity|intros [r H]; congruence].
Qed.

Lemma matches_covers pat n : ~ In "["%char pat -> (matches pat n = true <-> covers pat n).
Proof.
  intros H. unfold matches, covers, fnmatch. rewrite andb_true_iff, (tokens_stands _ _ _ (le_n _) H), orb_true_iff, negb_true_iff.
  rewrite <- !hidden_dot. destruct (hidden pat), (hidden n); intuition congruence.
Qed.

(* without magic a name stands for itself only *)
Lemma plain_stands p s : has_magic p = false -> (stands_for p s <-> s = p).
Proof.
  revert s. induction p as [|c p IH]; intros s H.
  - split; [intros X; inversion X; reflexivity|intros ->; constructor].
  - unfold has_magic in H. cbn in H. apply orb_false_iff in H. destruct H as [Hc Hp]. unfold is_magic in Hc.
    apply orb_false_iff in Hc. destruct Hc as [Hc _]. apply orb_false_iff in Hc. destruct Hc as [H1 H2].
    apply Ascii.eqb_neq in H1. apply Ascii.eqb_neq in H2. split.
    + intros X. inversion X; subst; try congruence. f_equal. apply IH; assumption.
    + intros ->. apply sf_same; try assumption. apply IH; [exact Hp|reflexivity].
Qed.

Lemma plain_covers p s : has_magic p = false -> (covers p s <-> s = p).
Proof.
  intros H. unfold covers. rewrite (plain_stands p s H). split; [intros [E _]; exact E|intros ->]. split; [reflexivity|tauto].
Qed.

Section Reach.
  Context {A : Type}.
  Implicit Types t u : tree A.

  (* the directories above a directory exist *)
  Definition rooted t : Prop := forall p q, exists_dir t (p ++ q) = true -> p <> [] -> exists_dir t p = true.

  Definition component t (b : dpath) (c : list ascii) : list dpath :=
    if has_magic c then map (fun n => b ++ [n]) (filter (matches c) (children t b))
    else if exists_dir t (b ++ [c]) then [b ++ [c]] else [].

  Lemma component_in t b c q : ~ In "["%char c -> (In q (component t b c) <-> exists n, q = b ++ [n] /\ exists_dir t q = true /\ covers c n).
  Proof.
    intros Hb. unfold component. destruct (has_magic c) eqn:E.
    - rewrite in_map_iff. split.
      + intros (n & <- & H). apply filter_In in H. destruct H as [H1 H2]. apply children_in in H1.
        exists n. split; [reflexivity|]. split; [exact H1|]. apply matches_covers; assumption.
      + intros (n & -> & H1 & H2). exists n. split; [reflexivity|]. apply filter_In. split; [apply children_in; exact H1|].
        apply matches_covers; assumption.
    - destruct (exists_dir t (b ++ [c])) eqn:X.
      + split.
        * intros [<-|[]]. exists c. split; [reflexivity|]. split; [exact X|]. apply plain_covers; [exact E|reflexivity].
        * intros (n & -> & _ & H). apply (plain_covers c n E) in H. subst n. left. reflexivity.
      + split; [intros []|]. intros (n & -> & H1 & H). apply (plain_covers c n E) in H. subst n. congruence.
  Qed.

  Lemma expand_in t rest : rooted t -> no_bracket rest -> forall bases q,
    In q (expand t bases rest) <->
    exists b m, In b bases /\ q = b ++ m /\ Forall2 covers rest m /\ (m <> [] -> exists_dir t q = true).
  Proof.
    intros Ht. induction rest as [|c rest IH]; intros Hb bases q.
    - cbn [expand]. split.
      + intros H. exists q, []. rewrite app_nil_r. repeat split; auto.
      + intros (b & m & Hin & -> & H & _). inversion H. rewrite app_nil_r. exact Hin.
    - assert (Hc : ~ In "["%char c) by (apply Hb; left; reflexivity).
      assert (Hr : no_bracket rest) by (intros x Hx; apply Hb; right; exact Hx).
      cbn [expand]. rewrite (IH Hr). split.
      + intros (b & m & Hin & -> & HF & He). apply in_flat_map in Hin. destruct Hin as (b0 & Hb0 & Hx).
        apply (component_in t b0 c b Hc) in Hx. destruct Hx as (n & -> & He' & Hm).
        exists b0, (n :: m). split; [exact Hb0|]. split; [rewrite <- app_assoc; reflexivity|]. split; [constructor; assumption|].
        intros _. destruct m as [|x m]; [rewrite app_nil_r; exact He'|apply He; discriminate].
      + intros (b & m & Hin & -> & HF & He). inversion HF as [|x n y m' Hn HF']; subst.
        specialize (He ltac:(discriminate)). exists (b ++ [n]), m'. split.
        { apply in_flat_map. exists b. split; [exact Hin|]. apply (component_in t b c _ Hc). exists n. split; [reflexivity|].
          split; [|exact Hn]. apply (Ht (b ++ [n]) m'); [rewrite <- app_assoc; exact He|]. destruct b; discriminate. }
        split; [rewrite <- app_assoc; reflexivity|]. split; [exact HF'|]. intros _. exact He.
  Qed.

  Lemma covers_prefix p a b q : plain_prefix p = (a, b) -> (Forall2 covers p q <-> exists m, q = a ++ m /\ Forall2 covers b m).
  Proof.
    revert a b q. induction p as [|c p IH]; intros a b q E; cbn [plain_prefix] in E.
    - injection E as <- <-. split; [intros H; inversion H; exists []; split; [reflexivity|constructor]|].
      intros (m & -> & H). inversion H. constructor.
    - destruct (has_magic c) eqn:M.
      + injection E as <- <-. split; [intros H; exists q; split; [reflexivity|exact H]|intros (m & -> & H); exact H].
      + destruct (plain_prefix p) as [a' b'] eqn:P. injection E as <- <-. split.
        * intros H. inversion H as [|x y l m Hx Hm]; subst. apply (plain_covers c y M) in Hx. subst y.
          apply (IH _ _ _ eq_refl) in Hm. destruct Hm as (k & -> & Hk). exists k. split; [reflexivity|exact Hk].
        * intros (m & -> & H). cbn. constructor; [apply plain_covers; [exact M|reflexivity]|].
          apply (IH _ _ _ eq_refl). exists m. split; [reflexivity|exact H].
  Qed.

  Lemma glob_in t p q : rooted t -> no_bracket p -> exists_dir t q = true ->
    (In q (glob_dirs t p) <-> Forall2 covers p q).
  Proof.
    intros Ht Hp Hq. unfold glob_dirs. destruct (plain_prefix p) as [a b] eqn:E. rewrite (covers_prefix p a b q E).
    assert (Hb : no_bracket b).
    { intros x Hx. apply Hp. rewrite (plain_prefix_app p a b E). apply in_app_iff. right. exact Hx. }
    rewrite (expand_in t b Ht Hb). split.
    - intros (b0 & m & [<-|[]] & -> & HF & _). exists m. split; [reflexivity|exact HF].
    - intros (m & -> & HF). exists a, m. split; [left; reflexivity|]. split; [reflexivity|]. split; [exact HF|]. intros _. exact Hq.
  Qed.

  Lemma node_files_none t q : exists_dir t q = false -> node_files t q = [].
  Proof. unfold exists_dir, node_files. destruct (lookup t q); [discriminate|reflexivity]. Qed.

  (* the files a cache at p counts, sorts and deletes *)
  Lemma c119_reach t p q i : rooted t -> no_bracket p -> exists_dir t p = true ->
    (In (q, i) (dataset_files t p) <-> Forall2 covers p q /\ In i (map fst (node_files t q))).
  Proof.
    intros Ht Hp He. unfold dataset_files. rewrite He. rewrite in_flat_map. split.
    - intros (d & Hd & Hi). apply in_map_iff in Hi. destruct Hi as (e & E & Hin). injection E as <- <-.
      split; [|apply in_map; exact Hin]. apply glob_in with (t := t); try assumption.
      destruct (exists_dir t d) eqn:X; [reflexivity|]. rewrite (node_files_none t d X) in Hin. destruct Hin.
    - intros (HF & Hi). exists q. split.
      + apply glob_in; try assumption. destruct (exists_dir t q) eqn:X; [reflexivity|]. rewrite (node_files_none t q X) in Hi. destruct Hi.
      + apply in_map_iff in Hi. destruct Hi as (e & <- & Hin). apply in_map_iff. exists e. split; [reflexivity|exact Hin].
  Qed.

  Lemma delete_away t p q d : lookup t p = Some d -> n_cfg d = true -> q <> p ->
    lookup (fst (g_delete t p)) q = option_map (on_files (filter (kept (dataset_files t p) q))) (lookup t q).
  Proof.
    intros Hp Hc Hq. unfold g_delete. rewrite Hp, Hc. cbn [negb].
    set (t2 := update _ _ _). assert (H2 : lookup t2 q = option_map (on_files (filter (kept (dataset_files t p) q))) (lookup t q)).
    { unfold t2. rewrite lookup_update_other by exact Hq. apply unlink_all. }
    destruct (node_files t2 p); [destruct (children t2 p)|]; cbn [fst]; [rewrite lookup_remove, path_eqb_neq by exact Hq|..]; exact H2.
  Qed.

  (* what deleting the cache at p leaves of another directory *)
  Lemma c119_delete_reach t p q d : rooted t -> no_bracket p -> lookup t p = Some d -> n_cfg d = true -> q <> p ->
    (Forall2 covers p q -> g_read (fst (g_delete t p)) q = []) /\
    (~ Forall2 covers p q -> lookup (fst (g_delete t p)) q = lookup t q).
  Proof.
    intros Ht Hp Hl Hc Hq. pose proof (delete_away t p q d Hl Hc Hq) as HD.
    assert (He : exists_dir t p = true) by (unfold exists_dir; rewrite Hl; reflexivity).
    split; intros HF.
    - unfold g_read, node_files. rewrite HD. destruct (lookup t q) as [nd|] eqn:E; [|reflexivity]. cbn [option_map].
      assert (X : filter (kept (dataset_files t p) q) (n_files nd) = []).
      { apply filter_none. intros e Hin. unfold kept. apply negb_false_iff. apply existsb_exists.
        exists (q, fst e). split; [|cbn; rewrite path_eqb_refl, Nat.eqb_refl; reflexivity].
        apply c119_reach; try assumption. split; [exact HF|]. unfold node_files. rewrite E. apply in_map. exact Hin. }
      unfold on_files. cbn [n_files]. rewrite X. reflexivity.
    - rewrite HD. destruct (lookup t q) as [nd|] eqn:E; [|reflexivity]. cbn [option_map]. f_equal.
      destruct nd as [cf fs]. unfold on_files. cbn [n_cfg n_files]. f_equal.
      apply filter_all. intros e Hin. unfold kept. apply negb_true_iff. apply not_true_is_false. intros X. apply existsb_exists in X.
      destruct X as ([q' i] & Hi & X). apply andb_true_iff in X. destruct X as [X _]. apply path_eqb_eq in X. cbn in X. subst q'.
      apply c119_reach in Hi; try assumption. destruct Hi as [Hi _]. contradiction.
  Qed.
End Reach.

Section Built.
  Context {A : Type}.
  Implicit Types t u : tree A.

  Lemma rooted_same t u : map fst u = map fst t -> rooted t -> rooted u.
  Proof. intros H Ht p q. rewrite !(exists_same u t _ H). apply Ht. Qed.

  Lemma make_dirs_exists t base rest q : exists_dir (make_dirs t base rest) q = true <->
    exists_dir t q = true \/ exists a b, a <> [] /\ rest = a ++ b /\ q = base ++ a.
  Proof.
    revert t base. induction rest as [|c rest IH]; intros t base; cbn [make_dirs].
    - split; [auto|]. intros [H|(a & b & Ha & E & _)]; [exact H|]. symmetry in E. apply app_eq_nil in E. destruct E. contradiction.
    - rewrite IH. assert (H1 : exists_dir (if exists_dir t (base ++ [c]) then t else t ++ [(base ++ [c], MkNode false [])]) q = true
        <-> exists_dir t q = true \/ q = base ++ [c]).
      { destruct (exists_dir t (base ++ [c])) eqn:E.
        - split; [auto|]. intros [H|H]; [exact H|]. subst q. exact E.
        - rewrite !exists_keys, map_app, in_app_iff. cbn. intuition. }
      rewrite H1. split.
      + intros [[H|H]|(a & b & Ha & E & Eq)]; [left; exact H| |].
        * right. exists [c], rest. split; [discriminate|]. split; [reflexivity|exact H].
        * right. exists (c :: a), b. split; [discriminate|]. split; [rewrite E; reflexivity|]. rewrite Eq, <- app_assoc. reflexivity.
      + intros [H|(a & b & Ha & E & Eq)]; [left; left; exact H|]. destruct a as [|x a]; [contradiction|].
        injection E as <- E. destruct a as [|y a].
        * left. right. exact Eq.
        * right. exists (y :: a), b. split; [discriminate|]. split; [exact E|]. rewrite Eq, <- app_assoc. reflexivity.
  Qed.

  Lemma rooted_make t p : rooted t -> rooted (make_dirs t [] p).
  Proof.
    intros Ht a b H Ha. apply make_dirs_exists in H. apply make_dirs_exists. destruct H as [H|(x & y & _ & E & Eq)].
    - left. apply (Ht a b H Ha).
    - right. cbn in Eq. subst x. exists a, (b ++ y). split; [exact Ha|]. split; [rewrite app_assoc; exact E|reflexivity].
  Qed.

  Lemma sort_keys srt t fs : map fst (fold_left (sort_file srt) fs t) = map fst t.
  Proof. revert t. induction fs as [|f fs IH]; intros t; [reflexivity|]. cbn [fold_left]. rewrite IH. apply keys_update. Qed.

  Lemma remove_exists t p q : exists_dir (remove_dir t p) q = if path_eqb q p then false else exists_dir t q.
  Proof. unfold exists_dir. rewrite lookup_remove. destruct (path_eqb q p); reflexivity. Qed.

  Lemma rooted_delete t p : rooted t -> rooted (fst (g_delete t p)).
  Proof.
    intros Ht. unfold g_delete. destruct (lookup t p) as [d|]; [|exact Ht]. destruct (negb (n_cfg d)); [exact Ht|].
    set (t2 := update _ _ _). assert (H2 : rooted t2).
    { apply (rooted_same t); [|exact Ht]. unfold t2. rewrite keys_update. apply unlink_keys. }
    destruct (node_files t2 p); [destruct (children t2 p) eqn:EC|]; cbn [fst]; try exact H2.
    intros a b H Ha. rewrite remove_exists in *. destruct (path_eqb (a ++ b) p) eqn:E1; [discriminate|].
    pose proof (H2 a b H Ha) as HA. destruct (path_eqb a p) eqn:E2; [|exact HA]. exfalso. apply path_eqb_eq in E2. subst a.
    destruct b as [|n b]; [rewrite app_nil_r, path_eqb_refl in E1; discriminate|].
    assert (X : exists_dir t2 (p ++ [n]) = true).
    { apply (H2 (p ++ [n]) b); [rewrite <- app_assoc; exact H|]. destruct p; discriminate. }
    apply children_in in X. rewrite EC in X. destruct X.
  Qed.

  Lemma rooted_create t p f : rooted t -> rooted (fst (g_create t p f)).
  Proof.
    intros Ht. unfold g_create.
    assert (H1 : rooted (fst (if f && exists_dir t p then g_delete t p else (t, None)))).
    { destruct (f && exists_dir t p); [apply rooted_delete|]; exact Ht. }
    destruct (if f && exists_dir t p then g_delete t p else (t, None)) as [t1 e]. cbn [fst] in H1.
    destruct e; [exact H1|]. destruct (exists_dir t1 p); [exact H1|]. cbn [fst].
    apply (rooted_same (make_dirs t1 [] p)); [apply keys_update|]. apply rooted_make. exact H1.
  Qed.

  (* the trees the library builds, starting from nothing *)
  Inductive built : tree A -> Prop :=
  | built_empty : built []
  | built_create t p f : built t -> built (fst (g_create t p f))
  | built_session t p bs rpf ops : built t -> built (g_session bs rpf t p ops)
  | built_sort t p srt : built t -> built (g_sort_by srt t p)
  | built_delete t p : built t -> built (fst (g_delete t p)).

  Lemma built_rooted t : built t -> rooted t.
  Proof.
    induction 1.
    - intros p q H. discriminate.
    - apply rooted_create. assumption.
    - apply (rooted_same t); [|assumption]. apply (rewrites_session bs rpf t p ops).
    - apply (rooted_same t); [|assumption]. apply sort_keys.
    - apply rooted_delete. assumption.
  Qed.

  Lemma c119_files t p q i : built t -> no_bracket p -> exists_dir t p = true ->
    (In (q, i) (dataset_files t p) <-> Forall2 covers p q /\ In i (map fst (node_files t q))).
  Proof. intros H. apply c119_reach. apply built_rooted. exact H. Qed.

  Lemma c119_delete_away t p q d : built t -> no_bracket p -> lookup t p = Some d -> n_cfg d = true -> q <> p ->
    (Forall2 covers p q -> g_read (fst (g_delete t p)) q = []) /\
    (~ Forall2 covers p q -> lookup (fst (g_delete t p)) q = lookup t q).
  Proof. intros H. apply c119_delete_reach. apply built_rooted. exact H. Qed.

  (* sorting leaves the directories the path does not reach as they are *)
  Lemma c119_sort_away srt t p q : built t -> no_bracket p -> ~ Forall2 covers p q ->
    lookup (g_sort_by srt t p) q = lookup t q.
  Proof.
    intros Hb Hp Hq. apply sort_all. intros [q' i] Hin E. cbn in E. subst q'.
    destruct (exists_dir t p) eqn:He.
    - apply c119_files in Hin; try assumption. destruct Hin. contradiction.
    - unfold dataset_files in Hin. rewrite He in Hin. destruct Hin.
  Qed.
End Built.
