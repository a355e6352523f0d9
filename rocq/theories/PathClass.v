(* Proofs about character classes in a path (C119). *)
From Verif Require Import Prelude CacheModel PathModel PathSpec PathProofs.
From Coq Require Import Ascii Lia.
Local Open Scope nat_scope.
Local Open Scope list_scope.

Lemma upto_len l a b : upto_close l = Some (a, b) -> length b < length l.
Proof.
  revert a b. induction l as [|c r IH]; intros a b H; cbn in H; [discriminate|]. cbn [length]. destruct (Ascii.eqb c "]").
  - injection H as <- <-. lia.
  - destruct (upto_close r) as [[a' b']|]; [|discriminate]. injection H as <- <-. specialize (IH a' b' eq_refl). lia.
Qed.
Lemma class_len l neg a b : class_text l = Some (neg, a, b) -> length b < length l.
Proof.
  unfold class_text.
  assert (X : forall (ng : bool) l1, length l1 <= length l ->
    match l1 with
    | [] => None
    | c :: r => if Ascii.eqb c "]" then match upto_close r with Some (a, b) => Some (ng, c :: a, b) | None => None end
                else match upto_close l1 with Some (a, b) => Some (ng, a, b) | None => None end
    end = Some (neg, a, b) -> length b < length l).
  { intros ng [|c r] Hl; [discriminate|]. destruct (Ascii.eqb c "]").
    - destruct (upto_close r) as [[a' b']|] eqn:E; [|discriminate]. intros H. injection H as _ _ <-. apply upto_len in E. cbn in Hl. lia.
    - destruct (upto_close (c :: r)) as [[a' b']|] eqn:E; [|discriminate]. intros H. injection H as _ _ <-. apply upto_len in E. lia. }
  destruct l as [|c r]; [apply (X false []); cbn; lia|]. destruct (Ascii.eqb c "!"); intros H.
  - apply (X true r); [cbn; lia|exact H].
  - apply (X false (c :: r)); [lia|exact H].
Qed.

(* more fuel than characters changes nothing *)
Lemma tokens_fuel n : forall l m, length l <= n -> length l <= m -> tokens n l = tokens m l.
Proof.
  induction n as [|n IH]; intros l m Hn Hm.
  - destruct l; [|cbn in Hn; lia]. destruct m; reflexivity.
  - destruct m as [|m]; [destruct l; [reflexivity|cbn in Hm; lia]|]. destruct l as [|c r]; [reflexivity|]. cbn [length] in *. cbn [tokens].
    rewrite (IH r m) by lia. destruct (class_text r) as [[[neg a] b]|] eqn:E; [|reflexivity]. apply class_len in E. rewrite (IH b m) by lia. reflexivity.
Qed.

Lemma upto_plain text post : ~ In "]"%char text -> upto_close (text ++ "]"%char :: post) = Some (text, post).
Proof.
  induction text as [|c r IH]; intros H; [reflexivity|]. cbn [app upto_close]. destruct (Ascii.eqb_spec c "]") as [->|_]; [exfalso; apply H; left; reflexivity|].
  rewrite IH by (intros X; apply H; right; exact X). reflexivity.
Qed.
Lemma ranges_plain text : ~ In "-"%char text -> class_ranges text = map (fun c => (c, c)) text.
Proof.
  induction text as [|c r IH]; intros H; [reflexivity|]. cbn [class_ranges map]. rewrite <- IH by (intros X; apply H; right; exact X).
  destruct r as [|h [|d r]]; try reflexivity. destruct (Ascii.eqb_spec h "-") as [->|_]; [exfalso; apply H; right; left; reflexivity|]. reflexivity.
Qed.
Lemma in_single c text : existsb (in_range c) (map (fun x => (x, x)) text) = true <-> In c text.
Proof.
  rewrite existsb_exists. split.
  - intros (r & Hr & H). apply in_map_iff in Hr. destruct Hr as (x & <- & Hx). unfold in_range in H. cbn [fst snd] in H. apply andb_true_iff in H. destruct H as [H1 H2].
    apply Nat.leb_le in H1, H2. assert (E : nat_of_ascii c = nat_of_ascii x) by lia. apply (f_equal ascii_of_nat) in E. rewrite !ascii_nat_embedding in E. congruence.
  - intros H. exists (c, c). split; [apply in_map_iff; exists c; auto|]. unfold in_range. cbn [fst snd]. rewrite Nat.leb_refl. reflexivity.
Qed.

Section Class.
  Variables (text post : list ascii).
  Hypothesis Ht : text <> [].
  Hypothesis Hc : ~ In "]"%char text.
  Hypothesis Hd : ~ In "-"%char text.

  Lemma class_open : hd_error text <> Some "!"%char -> class_text (text ++ "]"%char :: post) = Some (false, text, post).
  Proof.
    intros Hh. destruct text as [|c r]; [congruence|]. cbn [hd_error] in Hh. unfold class_text. cbn [app]. destruct (Ascii.eqb_spec c "!") as [->|_]; [congruence|].
    destruct (Ascii.eqb_spec c "]") as [->|_]; [exfalso; apply Hc; left; reflexivity|]. change (c :: r ++ "]"%char :: post) with ((c :: r) ++ "]"%char :: post). rewrite upto_plain by exact Hc. reflexivity.
  Qed.
  Lemma class_open_not : class_text ("!"%char :: text ++ "]"%char :: post) = Some (true, text, post).
  Proof.
    unfold class_text. cbn [Ascii.eqb Bool.eqb]. destruct text as [|c r]; [congruence|]. cbn [app].
    destruct (Ascii.eqb_spec c "]") as [->|_]; [exfalso; apply Hc; left; reflexivity|]. change (c :: r ++ "]"%char :: post) with ((c :: r) ++ "]"%char :: post). rewrite upto_plain by exact Hc. reflexivity.
  Qed.

  Lemma class_match c s : hd_error text <> Some "!"%char ->
    (fnmatch ("["%char :: text ++ "]"%char :: post) (c :: s) = true <-> In c text /\ fnmatch post s = true).
  Proof.
    intros Hh. unfold fnmatch. cbn [length tokens Ascii.eqb Bool.eqb]. rewrite class_open by exact Hh. cbn [tokens_match token_takes]. rewrite xorb_false_l, ranges_plain by exact Hd.
    rewrite andb_true_iff, in_single. rewrite (tokens_fuel _ post (length post)); [reflexivity| |lia]. rewrite app_length. cbn. lia.
  Qed.
  Lemma tokens_class n r : tokens (S n) ("["%char :: r) =
    match class_text r with Some (neg, x, r') => TClass neg (class_ranges x) :: tokens n r' | None => TLit "["%char :: tokens n r end.
  Proof. reflexivity. Qed.
  Lemma class_match_not c s :
    fnmatch ("["%char :: "!"%char :: text ++ "]"%char :: post) (c :: s) = true <-> ~ In c text /\ fnmatch post s = true.
  Proof.
    unfold fnmatch. match goal with |- context [tokens (length (?a :: ?r)) _] => change (length (a :: r)) with (S (length r)) end.
    rewrite tokens_class, class_open_not. cbn [tokens_match token_takes]. rewrite xorb_true_l, ranges_plain by exact Hd.
    rewrite andb_true_iff, negb_true_iff, <- in_single, not_true_iff_false.
    rewrite (tokens_fuel (length ("!"%char :: text ++ "]"%char :: post)) post (length post)); [reflexivity| |lia]. cbn [length]. rewrite app_length. cbn. lia.
  Qed.
End Class.

(* plain characters before the class *)
Lemma plain_match lit p s : (forall c, In c lit -> is_magic c = false) -> fnmatch (lit ++ p) (lit ++ s) = fnmatch p s.
Proof.
  induction lit as [|c r IH]; intros H; [reflexivity|]. assert (Hcm := H c (or_introl eq_refl)). unfold is_magic in Hcm. apply orb_false_iff in Hcm. destruct Hcm as [Hcm H3]. apply orb_false_iff in Hcm. destruct Hcm as [H1 H2].
  rewrite <- IH by (intros x Hx; apply H; right; exact Hx). unfold fnmatch. cbn [app length tokens]. rewrite H1, H2, H3. cbn [tokens_match token_takes]. rewrite Ascii.eqb_refl. reflexivity.
Qed.

(* what a name with a class stands for, and that it never stands for itself *)
Lemma class_name lit text post c s : text <> [] -> ~ In "]"%char text -> ~ In "-"%char text -> hd_error text <> Some "!"%char ->
  (forall x, In x lit -> is_magic x = false) ->
  (fnmatch (lit ++ "["%char :: text ++ "]"%char :: post) (lit ++ c :: s) = true <-> In c text /\ fnmatch post s = true).
Proof. intros H1 H2 H3 H4 H5. rewrite plain_match by exact H5. apply class_match; assumption. Qed.
Lemma class_name_not lit text post c s : text <> [] -> ~ In "]"%char text -> ~ In "-"%char text ->
  (forall x, In x lit -> is_magic x = false) ->
  (fnmatch (lit ++ "["%char :: "!"%char :: text ++ "]"%char :: post) (lit ++ c :: s) = true <-> ~ In c text /\ fnmatch post s = true).
Proof. intros H1 H2 H3 H5. rewrite plain_match by exact H5. apply class_match_not; assumption. Qed.
Lemma class_not_self lit text post : text <> [] -> ~ In "]"%char text -> ~ In "-"%char text -> hd_error text <> Some "!"%char -> ~ In "["%char text ->
  (forall x, In x lit -> is_magic x = false) ->
  fnmatch (lit ++ "["%char :: text ++ "]"%char :: post) (lit ++ "["%char :: text ++ "]"%char :: post) = false.
Proof.
  intros H1 H2 H3 H4 H5 H6. apply not_true_is_false. intros H. apply (class_name lit text post "["%char _ H1 H2 H3 H4 H6) in H. apply H5, H.
Qed.

Section OwnFiles.
  Context {A : Type}.
  Lemma expand_matches (t : tree A) rest : forall bases q, In q (expand t bases rest) ->
    exists b m, In b bases /\ q = b ++ m /\ Forall2 (fun c n => has_magic c = true -> matches c n = true) rest m.
  Proof.
    induction rest as [|c r IH]; intros bases q H; cbn [expand] in H; [exists q, []; rewrite app_nil_r; auto|].
    destruct (IH _ _ H) as (b & m & Hb & -> & HF). apply in_flat_map in Hb. destruct Hb as (b0 & Hb0 & Hx). exists b0.
    destruct (has_magic c) eqn:Em.
    - apply in_map_iff in Hx. destruct Hx as (n & <- & Hn). apply filter_In in Hn. exists (n :: m). split; [exact Hb0|]. split; [rewrite <- app_assoc; reflexivity|].
      constructor; [intros _; apply Hn|exact HF].
    - destruct (exists_dir t (b0 ++ [c])); [|destruct Hx]. destruct Hx as [<-|[]]. exists (c :: m). split; [exact Hb0|]. split; [rewrite <- app_assoc; reflexivity|].
      constructor; [congruence|exact HF].
  Qed.
  Lemma prefix_matches p a b : plain_prefix p = (a, b) -> p = a ++ b /\ Forall (fun c => has_magic c = false) a.
  Proof.
    revert a b. induction p as [|c r IH]; intros a b H; cbn in H; [injection H as <- <-; auto|]. destruct (has_magic c) eqn:E; [injection H as <- <-; auto|].
    destruct (plain_prefix r) as [a' b'] eqn:E'. injection H as <- <-. destruct (IH a' b' eq_refl) as [-> F]. auto.
  Qed.
  Lemma own_files (t : tree A) p n i : In n p -> has_magic n = true -> fnmatch n n = false -> ~ In (p, i) (dataset_files t p).
  Proof.
    intros Hn Hm Hf H. unfold dataset_files in H. destruct (exists_dir t p); [|destruct H]. apply in_flat_map in H. destruct H as (d & Hd & H).
    apply in_map_iff in H. destruct H as (x & E & _). injection E as -> _. unfold glob_dirs in Hd. destruct (plain_prefix p) as [a b] eqn:Ep.
    destruct (prefix_matches p a b Ep) as [-> Fa]. apply expand_matches in Hd. destruct Hd as (b0 & m & [<-|[]] & E & F). apply app_inv_head in E. subst m.
    apply in_app_iff in Hn. destruct Hn as [Hn|Hn]; [rewrite Forall_forall in Fa; rewrite (Fa n Hn) in Hm; discriminate|].
    clear -F Hn Hm Hf. induction b as [|c r IH]; [destruct Hn|]. inversion F as [|? ? ? ? F1 F2]; subst. destruct Hn as [->|Hn]; [|apply IH; assumption].
    specialize (F1 Hm). unfold matches in F1. rewrite Hf, andb_false_r in F1. discriminate.
  Qed.
  Lemma own_class (t : tree A) p lit text post i : In (lit ++ "["%char :: text ++ "]"%char :: post) p ->
    text <> [] -> ~ In "]"%char text -> ~ In "-"%char text -> hd_error text <> Some "!"%char -> ~ In "["%char text -> (forall x, In x lit -> is_magic x = false) ->
    ~ In (p, i) (dataset_files t p).
  Proof.
    intros Hn H1 H2 H3 H4 H5 H6. apply (own_files t p _ i Hn); [|apply class_not_self; assumption].
    unfold has_magic. apply existsb_exists. exists "["%char. split; [apply in_app_iff; right; left; reflexivity|reflexivity].
  Qed.
  Lemma delete_missing (t : tree A) p : exists_dir t p = false -> g_delete t p = (t, None).
  Proof. unfold exists_dir, g_delete. destruct (lookup t p); [discriminate|reflexivity]. Qed.
End OwnFiles.
Lemma class_range lit x y post c s : x <> "!"%char -> x <> "]"%char -> y <> "]"%char -> (forall z, In z lit -> is_magic z = false) ->
  (fnmatch (lit ++ "["%char :: x :: "-"%char :: y :: "]"%char :: post) (lit ++ c :: s) = true
   <-> (nat_of_ascii x <= nat_of_ascii c <= nat_of_ascii y) /\ fnmatch post s = true).
Proof.
  intros H1 H2 H3 H4. rewrite plain_match by exact H4. unfold fnmatch.
  match goal with |- context [tokens (length (?a :: ?r)) _] => change (length (a :: r)) with (S (length r)) end. rewrite tokens_class.
  assert (E : class_text (x :: "-"%char :: y :: "]"%char :: post) = Some (false, [x; "-"%char; y], post)).
  { unfold class_text. destruct (Ascii.eqb_spec x "!") as [->|_]; [congruence|]. destruct (Ascii.eqb_spec x "]") as [->|_]; [congruence|].
    change (x :: "-"%char :: y :: "]"%char :: post) with ([x; "-"%char; y] ++ "]"%char :: post). rewrite upto_plain; [reflexivity|].
    intros [E|[E|[E|[]]]]; congruence. }
  rewrite E. cbn [tokens_match token_takes class_ranges Ascii.eqb Bool.eqb existsb]. rewrite xorb_false_l, orb_false_r. unfold in_range. cbn [fst snd].
  rewrite !andb_true_iff, !Nat.leb_le. rewrite (tokens_fuel (length (x :: "-"%char :: y :: "]"%char :: post)) post (length post)); [reflexivity|cbn; lia|lia].
Qed.
