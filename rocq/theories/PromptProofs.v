(* Proofs for PromptProps.v: repr is a readable literal, and instructions determine the
   request. *)
From Verif Require Import Prelude TextModel PromptText PromptModel PromptSpec.
From Coq Require Import String Lia.
Local Open Scope Z_scope.
Local Open Scope list_scope.

(* ------------------------------------------------------------------ *)
(** * Reading back one character *)
Definition unhexd (c : Z) : Z := if c <? 58 then c - 48 else c - 87.
Lemma unhexd_hexd n : 0 <= n < 16 -> unhexd (hexd n) = n.
Proof. intros H. unfold unhexd, hexd. destruct (Z.ltb_spec n 10); [destruct (Z.ltb_spec (48 + n) 58); lia|destruct (Z.ltb_spec (87 + n) 58); lia]. Qed.
Fixpoint rd (k : nat) (s : text) : option (Z * text) :=
  match k with
  | O => Some (0, s)
  | S k' => match rd k' s with Some (a, c :: s') => Some (16 * a + unhexd c, s') | _ => None end
  end.
Lemma rd_hex k : forall n r, 0 <= n < 16 ^ Z.of_nat k -> rd k (hex k n ++ r) = Some (n, r).
Proof.
  induction k as [|k IH]; intros n r H; [cbn in *; f_equal; f_equal; lia|]. cbn [rd hex]. rewrite <- app_assoc. rewrite IH.
  - cbn [app]. rewrite unhexd_hexd by (apply Z.mod_pos_bound; lia). f_equal. f_equal. rewrite <- Z.div_mod; lia.
  - rewrite Nat2Z.inj_succ, Z.pow_succ_r in H by lia. split; [apply Z.div_pos; lia|apply Z.div_lt_upper_bound; lia].
Qed.
Definition unesc (q : Z) (s : text) : option (Z * text) :=
  match s with
  | [] => None
  | c :: r =>
    if c =? q then None else if c =? 92 then
      match r with
      | [] => None
      | k :: r' => if k =? 116 then Some (9, r') else if k =? 110 then Some (10, r') else if k =? 114 then Some (13, r')
                   else if k =? 120 then rd 2 r' else if k =? 117 then rd 4 r' else if k =? 85 then rd 8 r' else Some (k, r')
      end
    else Some (c, r)
  end.
Section Chars.
  Variable printable : Z -> bool.
  Notation esc := (esc printable).
  Lemma unesc_esc q c r : q = 34 \/ q = 39 -> 0 <= c < 1114112 -> unesc q (esc q c ++ r) = Some (c, r).
  Proof.
    intros Hq Hc. unfold PromptModel.esc.
    assert (E92 : (92 =? q) = false) by (apply Z.eqb_neq; destruct Hq; lia).
    destruct (Z.eqb_spec c q) as [->|Nq].
    { cbn [orb app unesc]. rewrite E92. cbn. destruct Hq as [-> | ->]; reflexivity. }
    destruct (Z.eqb_spec c 92) as [->|N92]; cbn [orb].
    { cbn [app unesc]. rewrite E92. reflexivity. }
    destruct (Z.eqb_spec c 9) as [->|N9]; [cbn [app unesc]; rewrite E92; reflexivity|].
    destruct (Z.eqb_spec c 10) as [->|N10]; [cbn [app unesc]; rewrite E92; reflexivity|].
    destruct (Z.eqb_spec c 13) as [->|N13]; [cbn [app unesc]; rewrite E92; reflexivity|].
    assert (P : forall l, unesc q (c :: l) = Some (c, l)).
    { intros l. cbn [unesc]. apply Z.eqb_neq in Nq, N92. rewrite Nq, N92. reflexivity. }
    destruct ((c <? 32) || (c =? 127)) eqn:E.
    { cbn [app unesc]. rewrite E92. cbn [Z.eqb Pos.eqb]. apply rd_hex. apply orb_true_iff in E. destruct E as [E|E]; [apply Z.ltb_lt in E|apply Z.eqb_eq in E]; cbn; lia. }
    destruct (c <? 127) eqn:E1; [apply P|]. destruct (printable c); [apply P|].
    destruct (Z.leb_spec c 255); [|destruct (Z.leb_spec c 65535)]; cbn [app unesc]; rewrite E92; cbn [Z.eqb Pos.eqb]; apply rd_hex; cbn; lia.
  Qed.
  Lemma flat_esc_inj q : q = 34 \/ q = 39 -> forall t t' r r', unicode t -> unicode t' ->
    flat_map (esc q) t ++ q :: r = flat_map (esc q) t' ++ q :: r' -> t = t' /\ r = r'.
  Proof.
    intros Hq. assert (N : forall l, unesc q (q :: l) = None) by (intros l; cbn; rewrite Z.eqb_refl; reflexivity).
    induction t as [|c t IH]; intros [|c' t'] r r' U U' E; cbn [flat_map] in E.
    - injection E as E. auto.
    - exfalso. inversion U'; subst. cbn [app] in E. rewrite <- app_assoc in E. apply (f_equal (unesc q)) in E.
      rewrite N, unesc_esc in E by assumption. discriminate.
    - exfalso. inversion U; subst. cbn [app] in E. rewrite <- app_assoc in E. apply (f_equal (unesc q)) in E.
      rewrite N, unesc_esc in E by assumption. discriminate.
    - inversion U; inversion U'; subst. rewrite <- !app_assoc in E. apply (f_equal (unesc q)) in E.
      rewrite !unesc_esc in E by assumption. injection E as -> E. destruct (IH t' r r') as [-> ->]; auto.
  Qed.
  Lemma quote_cases t : quote t = 34 \/ quote t = 39.
  Proof. unfold quote. destruct (_ && _); auto. Qed.
  Lemma repr_str_inj t t' r r' : unicode t -> unicode t' ->
    repr_str printable t ++ r = repr_str printable t' ++ r' -> t = t' /\ r = r'.
  Proof.
    intros U U' E. unfold repr_str in E. cbn [app] in E. injection E as Eq E. rewrite Eq, <- !app_assoc in E. cbn [app] in E.
    apply (flat_esc_inj (quote t')); [apply quote_cases|assumption|assumption|exact E].
  Qed.
  Lemma joined_inj : forall l l' r r', Forall unicode l -> Forall unicode l' ->
    joined (map (repr_str printable) l) ++ 93 :: r = joined (map (repr_str printable) l') ++ 93 :: r' -> l = l' /\ r = r'.
  Proof.
    induction l as [|x l IH]; intros [|x' l'] r r' U U' E.
    - injection E as E. auto.
    - exfalso. cbn [map joined app] in E. destruct l'; cbn [map] in E; unfold repr_str at 1 in E; cbn [app] in E; destruct (quote_cases x') as [Q|Q]; rewrite Q in E; discriminate.
    - exfalso. cbn [map joined app] in E. destruct l; cbn [map] in E; unfold repr_str at 1 in E; cbn [app] in E; destruct (quote_cases x) as [Q|Q]; rewrite Q in E; discriminate.
    - inversion U as [|a b Hx Hl]; inversion U' as [|a' b' Hx' Hl']; subst. cbn [map joined] in E. destruct l as [|y l], l' as [|y' l']; cbn [map] in E.
      + destruct (repr_str_inj _ _ _ _ Hx Hx' E) as [-> E2]. injection E2 as ->. auto.
      + exfalso. rewrite <- app_assoc in E. destruct (repr_str_inj _ _ _ _ Hx Hx' E) as [_ E2]. discriminate.
      + exfalso. rewrite <- app_assoc in E. destruct (repr_str_inj _ _ _ _ Hx Hx' E) as [_ E2]. discriminate.
      + rewrite <- !app_assoc in E. destruct (repr_str_inj _ _ _ _ Hx Hx' E) as [-> E2]. cbn [app] in E2. injection E2 as E2.
        destruct (IH (y' :: l') r r' Hl Hl' E2) as [-> ->]. auto.
  Qed.
  Lemma repr_texts_inj l l' r r' : Forall unicode l -> Forall unicode l' ->
    repr_texts printable l ++ r = repr_texts printable l' ++ r' -> l = l' /\ r = r'.
  Proof.
    intros U U' E. unfold repr_texts in E. rewrite <- !app_assoc in E. cbn [app] in E. injection E as E. apply joined_inj; assumption.
  Qed.
  Variable other : json -> text.
  Lemma strings_texts l : strings l -> exists ts, l = map JStr ts /\ Forall unicode ts.
  Proof.
    induction 1 as [|v l (t & -> & U) _ (ts & -> & F)]; [exists []; auto|]. exists (t :: ts). split; [reflexivity|constructor; assumption].
  Qed.
  Lemma repr_items_texts ts : repr_items printable other (map JStr ts) = repr_texts printable ts.
  Proof. unfold repr_items, repr_texts. rewrite map_map. reflexivity. Qed.
  Lemma repr_items_inj l l' r r' : strings l -> strings l' ->
    repr_items printable other l ++ r = repr_items printable other l' ++ r' -> l = l' /\ r = r'.
  Proof.
    intros U U' E. destruct (strings_texts l U) as (ts & -> & F). destruct (strings_texts l' U') as (ts' & -> & F').
    rewrite !repr_items_texts in E. destruct (repr_texts_inj ts ts' r r' F F' E) as [-> ->]. auto.
  Qed.

  (* no line breaks *)
  Lemma hexd_line n : hexd (n mod 16) <> 10.
  Proof. unfold hexd. assert (H := Z.mod_pos_bound n 16 ltac:(lia)). destruct (n mod 16 <? 10); lia. Qed.
  Lemma hex_line k : forall n, ~ In 10 (hex k n).
  Proof.
    induction k as [|k IH]; intros n H; [destruct H|]. cbn [hex] in H. apply in_app_or in H. destruct H as [H|[H|[]]]; [apply (IH _ H)|].
    apply (hexd_line n), H.
  Qed.
  Lemma esc_line q c : q = 34 \/ q = 39 -> ~ In 10 (esc q c).
  Proof.
    intros Hq. unfold PromptModel.esc.
    destruct (Z.eqb_spec c q) as [->|Nq]; [cbn; intros [H|[H|[]]]; destruct Hq; lia|].
    destruct (Z.eqb_spec c 92) as [->|N92]; [cbn; intuition lia|]. cbn [orb].
    destruct (Z.eqb_spec c 9); [cbn; intuition lia|]. destruct (Z.eqb_spec c 10); [cbn; intuition lia|]. destruct (Z.eqb_spec c 13); [cbn; intuition lia|].
    assert (X : forall k m, m <> 10 -> ~ In 10 (92 :: m :: hex k c)).
    { intros k m Hm [H|[H|H]]; [lia|lia|apply (hex_line _ _ H)]. }
    destruct ((c <? 32) || (c =? 127)); [apply X; lia|]. destruct (c <? 127); [cbn; intuition lia|]. destruct (printable c); [cbn; intuition lia|].
    destruct (c <=? 255); [apply X; lia|]. destruct (c <=? 65535); apply X; lia.
  Qed.
  Lemma repr_str_line t : one_line (repr_str printable t).
  Proof.
    unfold repr_str, one_line. assert (Q := quote_cases t). intros [H|H]; [destruct Q; lia|]. apply in_app_or in H. destruct H as [H|[H|[]]]; [|destruct Q; lia].
    apply in_flat_map in H. destruct H as (c & _ & H). apply (esc_line _ _ Q H).
  Qed.
  Lemma joined_line l : Forall one_line l -> one_line (joined l).
  Proof.
    intros F. induction F as [|x l Hx F IH]; [intros []|]. cbn [joined]. destruct l; [exact Hx|]. intros H. apply in_app_or in H. destruct H as [H|H]; [apply (Hx H)|].
    cbn [app] in H. destruct H as [H|[H|H]]; [lia|lia|]. apply (IH H).
  Qed.
  Lemma repr_texts_line l : one_line (repr_texts printable l).
  Proof.
    unfold repr_texts, one_line. intros H. cbn [app] in H. destruct H as [H|H]; [lia|]. apply in_app_or in H. destruct H as [H|[H|[]]]; [|lia].
    apply joined_line in H; [exact H|]. apply Forall_map, Forall_forall. intros x _. apply repr_str_line.
  Qed.
  Lemma repr_items_line l : strings l -> one_line (repr_items printable other l).
  Proof. intros H. destruct (strings_texts l H) as (ts & -> & _). rewrite repr_items_texts. apply repr_texts_line. Qed.
End Chars.

(* ------------------------------------------------------------------ *)
(** * Lines *)
Lemma first_line : forall x y (a b : text), one_line x -> one_line y -> x ++ 10 :: a = y ++ 10 :: b -> x = y /\ a = b.
Proof.
  induction x as [|c x IH]; intros [|d y] a b Hx Hy E; cbn in E.
  - injection E as E. auto.
  - injection E as <- _. exfalso. apply Hy. left. reflexivity.
  - injection E as -> _. exfalso. apply Hx. left. reflexivity.
  - injection E as -> E. destruct (IH y a b) as [-> ->]; [intros H; apply Hx; right; exact H|intros H; apply Hy; right; exact H|exact E|auto].
Qed.
Definition starts (s : text) : Prop := exists w, s = 10 :: w.
Definition ends (s : text) : Prop := exists w, s = w ++ [10].
Lemma sep_first s x y a b : starts s -> one_line x -> one_line y -> x ++ s ++ a = y ++ s ++ b -> x = y /\ a = b.
Proof.
  intros (w & ->) Hx Hy E. cbn [app] in E. apply first_line in E; [|assumption|assumption]. destruct E as [-> E]. apply app_inv_head in E. auto.
Qed.
Lemma sep_last s x y a b : ends s -> one_line x -> one_line y -> a ++ s ++ x = b ++ s ++ y -> a = b /\ x = y.
Proof.
  intros (w & ->) Hx Hy E. rewrite <- !app_assoc in E. cbn [app] in E. apply (f_equal (@rev Z)) in E. rewrite !rev_app_distr in E. cbn [rev] in E.
  rewrite <- !app_assoc in E. cbn [app] in E. rename E into X.
  apply first_line in X; [|intros H; apply Hx, in_rev, H|intros H; apply Hy, in_rev, H].
  destruct X as [X1 X2]. apply app_inv_head in X2. apply (f_equal (@rev Z)) in X1, X2. rewrite !rev_involutive in X1, X2. auto.
Qed.
Lemma starts_lit s : hd 0 s = 10 -> s <> [] -> starts s.
Proof. destruct s as [|c w]; [congruence|]. cbn. intros -> _. exists w. reflexivity. Qed.
Lemma ends_lit s : last s 0 = 10 -> s <> [] -> ends s.
Proof. intros H N. exists (removelast s). rewrite <- H. apply app_removelast_last, N. Qed.

(* ------------------------------------------------------------------ *)
(** * Instructions of different kinds *)
Definition heads : list text :=
  [t_claims_0; t_opinions_0; t_statements_0; t_answer_correctness_0; t_answer_relevance_0; t_bias_0; t_context_precision_0; t_context_recall_0;
   t_context_relevance_0; t_faithfulness_0; t_hallucination_0; t_summary_coherence_0; t_toxicity_0].
Lemma render_head pr ot r : exists body, render pr ot r = nth (kind r) heads [] ++ body.
Proof. destruct r; eexists; reflexivity. Qed.
Lemma kind_bound r : (kind r < 13)%nat.
Proof. destruct r; cbn; lia. Qed.
Fixpoint clash (a b : text) : bool :=
  match a, b with x :: a', y :: b' => if x =? y then clash a' b' else true | _, _ => false end.
Lemma clash_spec : forall a b x y, clash a b = true -> a ++ x <> b ++ y.
Proof.
  induction a as [|c a IH]; intros [|d b] x y H; try discriminate. cbn in *. intros E. injection E as -> E. rewrite Z.eqb_refl in H. apply (IH b x y H E).
Qed.
Lemma heads_clash : forallb (fun i => forallb (fun j => Nat.eqb i j || clash (nth i heads []) (nth j heads [])) (seq 0 13)) (seq 0 13) = true.
Proof. vm_compute. reflexivity. Qed.
Theorem render_kind pr ot r r' : render pr ot r = render pr ot r' -> kind r = kind r'.
Proof.
  intros E. destruct (render_head pr ot r) as (x & X). destruct (render_head pr ot r') as (y & Y). rewrite X, Y in E.
  assert (H := heads_clash). rewrite forallb_forall in H. specialize (H (kind r)).
  assert (I : In (kind r) (seq 0 13)) by (apply in_seq; pose proof (kind_bound r); lia). specialize (H I).
  rewrite forallb_forall in H. specialize (H (kind r')). assert (I' : In (kind r') (seq 0 13)) by (apply in_seq; pose proof (kind_bound r'); lia).
  specialize (H I'). apply orb_true_iff in H. destruct H as [H|H]; [apply Nat.eqb_eq, H|]. exfalso. apply (clash_spec _ _ x y H E).
Qed.

(* ------------------------------------------------------------------ *)
(** * Instructions determine the request *)
Ltac sep := match goal with |- starts _ => apply starts_lit; [vm_compute; reflexivity|vm_compute; discriminate]
                          | |- ends _ => apply ends_lit; [vm_compute; reflexivity|vm_compute; discriminate] end.
Theorem render_inj pr ot r r' : proper r -> proper r' -> first_on_one_line r -> first_on_one_line r' -> render pr ot r = render pr ot r' -> r = r'.
Proof.
  intros P P' O O' E. assert (K := render_kind pr ot r r' E).
  destruct r as [t|t|t|q p g|q s|o|q cs g|cs g|q cs|c cs|t cs|t s|o], r' as [t'|t'|t'|q' p' g'|q' s'|o'|q' cs' g'|cs' g'|q' cs'|c' cs'|t' cs'|t' s'|o']; try discriminate; clear K;
    cbn [render] in E; apply app_inv_head in E; cbn [proper] in P, P'.
  - apply app_inv_tail in E. congruence.
  - apply app_inv_tail in E. congruence.
  - apply app_inv_tail in E. congruence.
  - destruct P as (_ & Sp & Sg), P' as (_ & Sp' & Sg'). rewrite !app_assoc in E. apply app_inv_tail in E.
    rewrite <- (app_assoc _ t_answer_correctness_2), <- (app_assoc _ t_answer_correctness_2) in E.
    apply (sep_last t_answer_correctness_2) in E; [|sep|apply repr_items_line, Sg|apply repr_items_line, Sg'].
    destruct E as [E Eg]. rewrite <- !app_assoc in E. apply (sep_last t_answer_correctness_1) in E; [|sep|apply repr_items_line, Sp|apply repr_items_line, Sp'].
    destruct E as [-> Ep]. destruct (repr_items_inj pr ot p p' [] [] Sp Sp') as [-> _]; [rewrite Ep; reflexivity|].
    destruct (repr_items_inj pr ot g g' [] [] Sg Sg') as [-> _]; [rewrite Eg; reflexivity|]. reflexivity.
  - destruct P as (_ & Ss), P' as (_ & Ss'). rewrite !app_assoc in E. apply app_inv_tail in E. rewrite <- !app_assoc in E.
    apply (sep_last t_answer_relevance_1) in E; [|sep|apply repr_items_line, Ss|apply repr_items_line, Ss'].
    destruct E as [-> Es]. destruct (repr_items_inj pr ot s s' [] [] Ss Ss') as [-> _]; [rewrite Es; reflexivity|]. reflexivity.
  - apply repr_items_inj in E; [|assumption|assumption]. destruct E as [-> _]. reflexivity.
  - destruct P as (_ & Sc & _), P' as (_ & Sc' & _). apply (sep_first t_context_precision_1) in E; [|sep|exact O|exact O'].
    destruct E as [-> E]. apply (sep_first t_context_precision_2) in E; [|sep|apply repr_texts_line|apply repr_texts_line].
    destruct E as [Ec E]. apply app_inv_tail in E. destruct (repr_texts_inj pr cs cs' [] [] Sc Sc') as [-> _]; [rewrite Ec; reflexivity|]. congruence.
  - destruct P as (Sc & Sg), P' as (Sc' & Sg'). apply (sep_first t_context_recall_1) in E; [|sep|apply repr_texts_line|apply repr_texts_line].
    destruct E as [Ec E]. apply repr_items_inj in E; [|assumption|assumption]. destruct E as [-> _].
    destruct (repr_texts_inj pr cs cs' [] [] Sc Sc') as [-> _]; [rewrite Ec; reflexivity|]. reflexivity.
  - destruct P as (_ & Sc), P' as (_ & Sc'). rewrite !app_assoc in E. apply app_inv_tail in E. rewrite <- !app_assoc in E.
    apply (sep_last t_context_relevance_1) in E; [|sep|apply repr_texts_line|apply repr_texts_line].
    destruct E as [-> Es]. destruct (repr_texts_inj pr cs cs' [] [] Sc Sc') as [-> _]; [rewrite Es; reflexivity|]. reflexivity.
  - destruct P as (Sg & Sc), P' as (Sg' & Sc'). apply (sep_first t_faithfulness_1) in E; [|sep|apply repr_texts_line|apply repr_texts_line].
    destruct E as [Ec E]. apply repr_items_inj in E; [|assumption|assumption]. destruct E as [-> _].
    destruct (repr_texts_inj pr cs cs' [] [] Sc Sc') as [-> _]; [rewrite Ec; reflexivity|]. reflexivity.
  - destruct P as (_ & Sc), P' as (_ & Sc'). apply (sep_first t_hallucination_1) in E; [|sep|apply repr_texts_line|apply repr_texts_line].
    destruct E as [Ec E]. apply app_inv_tail in E. destruct (repr_texts_inj pr cs cs' [] [] Sc Sc') as [-> _]; [rewrite Ec; reflexivity|]. congruence.
  - apply (sep_first t_summary_coherence_1) in E; [|sep|exact O|exact O']. destruct E as [-> E]. apply app_inv_tail in E. congruence.
  - apply repr_items_inj in E; [|assumption|assumption]. destruct E as [-> _]. reflexivity.
Qed.

(* ------------------------------------------------------------------ *)
(** * repr is a literal *)
Lemma hexd_digit n : 0 <= n < 16 -> digit (hexd n) n.
Proof.
  intros H. unfold hexd. destruct (Z.ltb_spec n 10).
  - replace n with (48 + n - 48) at 2 by lia. apply dg_dec. lia.
  - replace n with (87 + n - 87) at 2 by lia. apply dg_let. lia.
Qed.
Lemma hex_length k : forall n, List.length (hex k n) = k.
Proof. induction k as [|k IH]; intros n; [reflexivity|]. cbn. rewrite app_length, IH. cbn. lia. Qed.
Lemma hex_number k : forall n, 0 <= n < 16 ^ Z.of_nat k -> number (hex k n) n.
Proof.
  induction k as [|k IH]; intros n H; [cbn in *; replace n with 0 by lia; constructor|]. cbn [hex].
  replace n with (16 * (n / 16) + n mod 16) at 3 by (symmetry; apply Z.div_mod; lia). apply nu_snoc; [|apply hexd_digit, Z.mod_pos_bound; lia].
  apply IH. rewrite Nat2Z.inj_succ, Z.pow_succ_r in H by lia. split; [apply Z.div_pos; lia|apply Z.div_lt_upper_bound; lia].
Qed.
Lemma number_rd ds n : number ds n -> forall r, rd (List.length ds) (ds ++ r) = Some (n, r).
Proof.
  induction 1 as [|ds n c d _ IH D]; intros r; [reflexivity|]. rewrite app_length. cbn [List.length]. rewrite Nat.add_1_r. cbn [rd].
  rewrite <- app_assoc, IH. cbn [app]. f_equal. f_equal. f_equal. unfold unhexd. destruct D; destruct (Z.ltb_spec c 58); lia.
Qed.
Lemma char_unesc q s c : q = 34 \/ q = 39 -> char_literal q s c -> forall r, unesc q (s ++ r) = Some (c, r).
Proof.
  intros Hq H r. assert (E92 : (92 =? q) = false) by (apply Z.eqb_neq; destruct Hq; lia).
  destruct H as [c A B _ _ _| | | | | | |ds n L N|ds n L N|ds n L N _]; cbn [app unesc]; try (rewrite E92; reflexivity).
  - apply Z.eqb_neq in A, B. rewrite A, B. reflexivity.
  - rewrite E92. cbn [Z.eqb Pos.eqb]. rewrite <- L. apply number_rd, N.
  - rewrite E92. cbn [Z.eqb Pos.eqb]. rewrite <- L. apply number_rd, N.
  - rewrite E92. cbn [Z.eqb Pos.eqb]. rewrite <- L. apply number_rd, N.
Qed.
Lemma chars_inj q : q = 34 \/ q = 39 -> forall s t, chars_literal q s t -> forall s' t' r r', chars_literal q s' t' ->
  s ++ q :: r = s' ++ q :: r' -> t = t' /\ r = r'.
Proof.
  intros Hq. assert (N : forall l, unesc q (q :: l) = None) by (intros l; cbn; rewrite Z.eqb_refl; reflexivity).
  induction 1 as [|s c ss t Hc Hs IH]; intros s' t' r r' H' E; destruct H' as [|s' c' ss' t' Hc' Hs'].
  - injection E as E. auto.
  - exfalso. rewrite <- app_assoc in E. apply (f_equal (unesc q)) in E. cbn [app] in E. rewrite N, (char_unesc q s' c' Hq Hc') in E. discriminate.
  - exfalso. rewrite <- app_assoc in E. apply (f_equal (unesc q)) in E. cbn [app] in E. rewrite N, (char_unesc q s c Hq Hc) in E. discriminate.
  - rewrite <- !app_assoc in E. apply (f_equal (unesc q)) in E. rewrite (char_unesc q s c Hq Hc), (char_unesc q s' c' Hq Hc') in E. injection E as -> E.
    destruct (IH ss' t' r r' Hs' E) as [-> ->]. auto.
Qed.
Lemma str_literal_inj s t s' t' r r' : str_literal s t -> str_literal s' t' -> s ++ r = s' ++ r' -> t = t' /\ r = r'.
Proof.
  intros [ss u C|ss u C] [ss' u' C'|ss' u' C'] E; cbn [app] in E; try discriminate; injection E as E; rewrite <- !app_assoc in E; cbn [app] in E.
  - apply (chars_inj 39 (or_intror eq_refl) ss u C ss' u' r r' C' E).
  - apply (chars_inj 34 (or_introl eq_refl) ss u C ss' u' r r' C' E).
Qed.
Lemma str_literal_head s t : str_literal s t -> exists q w, s = q :: w /\ (q = 34 \/ q = 39).
Proof. intros [ss u _|ss u _]; eexists; eexists; split; try reflexivity; auto. Qed.
Lemma items_literal_inj : forall s l, items_literal s l -> forall s' l' r r', items_literal s' l' -> s ++ 93 :: r = s' ++ 93 :: r' -> l = l' /\ r = r'.
Proof.
  fix IH 3. intros s l [|s1 t1 ss1 ts1 S1 I1] s' l' r r' H' E.
  - destruct H' as [|s2 t2 ss2 ts2 S2 I2]; [injection E as E; auto|discriminate].
  - destruct H' as [|s2 t2 ss2 ts2 S2 I2]; [discriminate|]. rewrite <- !app_assoc in E. apply app_inv_head in E.
    destruct (str_literal_inj _ _ _ _ _ _ S1 S2 E) as [-> E2]. destruct (IH ss1 ts1 I1 ss2 ts2 r r' I2 E2) as [-> ->]. auto.
Qed.
Theorem list_literal_inj s l l' : list_literal s l -> list_literal s l' -> l = l'.
Proof.
  intros H H'. remember s as s0 eqn:Es in H'. destruct H as [|s1 t1 ss1 ts1 S1 I1], H' as [|s2 t2 ss2 ts2 S2 I2].
  - reflexivity.
  - exfalso. destruct (str_literal_head _ _ S2) as (q & w & -> & Q). cbn in Es. injection Es as Es _. destruct Q; lia.
  - exfalso. destruct (str_literal_head _ _ S1) as (q & w & -> & Q). cbn in Es. injection Es as Es _. destruct Q; lia.
  - apply app_inv_head in Es. destruct (str_literal_inj _ _ _ _ _ _ S2 S1 Es) as [-> E2].
    destruct (items_literal_inj _ _ I1 _ _ [] [] I2 (eq_sym E2)) as [-> _]. reflexivity.
Qed.
Section Literals.
  Variable printable : Z -> bool.
  Lemma esc_literal q c : q = 34 \/ q = 39 -> 0 <= c < 1114112 -> char_literal q (esc printable q c) c.
  Proof.
    intros Hq Hc. unfold esc.
    destruct (Z.eqb_spec c q) as [->|Nq]; [destruct Hq as [-> | ->]; constructor|].
    destruct (Z.eqb_spec c 92) as [->|N92]; [constructor|]. cbn [orb].
    destruct (Z.eqb_spec c 9) as [->|N9]; [constructor|]. destruct (Z.eqb_spec c 10) as [->|N10]; [constructor|]. destruct (Z.eqb_spec c 13) as [->|N13]; [constructor|].
    destruct ((c <? 32) || (c =? 127)) eqn:E.
    { apply cl_x; [apply hex_length|]. apply hex_number. apply orb_true_iff in E. destruct E as [E|E]; [apply Z.ltb_lt in E|apply Z.eqb_eq in E]; cbn; lia. }
    apply orb_false_iff in E. destruct E as [E _]. apply Z.ltb_ge in E.
    assert (P : char_literal q [c] c) by (apply cl_plain; lia). destruct (c <? 127); [exact P|]. destruct (printable c); [exact P|].
    destruct (Z.leb_spec c 255); [|destruct (Z.leb_spec c 65535)]; [apply cl_x|apply cl_u|apply cl_U]; try apply hex_length; try (apply hex_number; cbn; lia); lia.
  Qed.
  Lemma repr_literal t : unicode t -> str_literal (repr_str printable t) t.
  Proof.
    intros U. assert (C : forall q, q = 34 \/ q = 39 -> chars_literal q (flat_map (esc printable q) t) t).
    { intros q Hq. induction U as [|c t Hc U IH]; [constructor|]. cbn [flat_map]. constructor; [apply esc_literal; assumption|exact IH]. }
    unfold repr_str. destruct (quote_cases t) as [Q|Q]; rewrite Q; constructor; apply C; auto.
  Qed.
  Lemma joined_literal l : Forall unicode l -> forall x, joined (x :: map (repr_str printable) l) = x ++ flat_map (fun t => [44; 32] ++ repr_str printable t) l.
  Proof.
    induction 1 as [|t l _ _ IH]; intros x; [cbn; rewrite app_nil_r; reflexivity|]. cbn [map flat_map]. 
    change (joined (x :: repr_str printable t :: map (repr_str printable) l)) with (x ++ [44; 32] ++ joined (repr_str printable t :: map (repr_str printable) l)).
    rewrite IH, <- app_assoc. reflexivity.
  Qed.
  Lemma repr_texts_literal l : Forall unicode l -> list_literal (repr_texts printable l) l.
  Proof.
    intros [|t l' U F]; [constructor|]. unfold repr_texts. cbn [map]. rewrite joined_literal by exact F. rewrite <- app_assoc.
    apply (ll_cons (repr_str printable t) t (flat_map (fun t => [44; 32] ++ repr_str printable t) l') l'); [apply repr_literal, U|].
    clear t U. induction F as [|t m U F IH]; [constructor|]. cbn [flat_map]. rewrite <- app_assoc.
    apply (il_cons (repr_str printable t) t (flat_map (fun t => [44; 32] ++ repr_str printable t) m) m); [apply repr_literal, U|exact IH].
  Qed.
  Variable other : json -> text.
  Lemma repr_items_literal l : strings l -> list_literal (repr_items printable other l) (map str_of l).
  Proof.
    intros H. destruct (strings_texts l H) as (ts & -> & F). rewrite repr_items_texts, map_map. cbn. rewrite map_id. apply repr_texts_literal, F.
  Qed.
End Literals.

(* ------------------------------------------------------------------ *)
(** * Sections *)
Lemma ls_eq ind h v vs s rest y : y = lit h ++ lit ":
" ++ lit ind ++ s ++ lit "

" ++ rest -> shown v s -> lists_sections ind vs rest -> lists_sections ind ((h, v) :: vs) y.
Proof. intros -> V L. apply ls_cons; assumption. Qed.
Definition heading (ind h : string) : text := lit h ++ lit ":
" ++ lit ind.
Lemma sections_start ind secs T0 h body : T0 = firstn (List.length T0 - List.length (heading ind h)) T0 ++ heading ind h ->
  lists_sections ind secs (heading ind h ++ body) -> exists x y, T0 ++ body = x ++ y /\ lists_sections ind secs y.
Proof. intros E H. exists (firstn (List.length T0 - List.length (heading ind h)) T0), (heading ind h ++ body). split; [rewrite E at 1; rewrite <- app_assoc; reflexivity|exact H]. Qed.
Lemma sections_next ind h v secs s T h' body : shown v s -> T = lit "

" ++ heading ind h' -> lists_sections ind secs (heading ind h' ++ body) -> lists_sections ind ((h, v) :: secs) (heading ind h ++ s ++ T ++ body).
Proof.
  intros V E H. apply (ls_eq ind h v secs s (heading ind h' ++ body)); [|exact V|exact H]. unfold heading at 1. rewrite E, <- !app_assoc. reflexivity.
Qed.
Lemma sections_last ind h v s T rest : shown v s -> T = lit "

" ++ rest -> lists_sections ind [(h, v)] (heading ind h ++ s ++ T).
Proof.
  intros V E. apply (ls_eq ind h v [] s rest); [|exact V|constructor]. unfold heading. rewrite E, <- !app_assoc. reflexivity.
Qed.
Ltac secs := first
  [ eapply sections_last; [|vm_compute; reflexivity]
  | eapply sections_next; [| |secs]; [|vm_compute; reflexivity|..] ].
Theorem render_sections pr ot r : proper r -> exists x y, render pr ot r = x ++ y /\ lists_sections (indent r) (sections r) y.
Proof.
  intros P. destruct r as [t|t|t|q p g|q s|o|q cs g|cs g|q cs|c cs|t cs|t s|o]; cbn [proper] in P; cbn [render indent sections];
  (eapply sections_start; [|secs]; [vm_compute; reflexivity|..]); cbn [shown]; try reflexivity;
  try (apply repr_items_literal; tauto); try (apply repr_texts_literal; tauto).
Qed.
