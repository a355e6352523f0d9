(* Reading and validating a response: extraction, integers, shapes. *)
From Verif Require Import Prelude TextModel TextSpec.
From Coq Require Import QArith String.
From Coq Require List.
Local Open Scope string_scope.
Local Open Scope nat_scope.
Local Open Scope list_scope.

Lemma text_eqb_eq a b : text_eqb a b = true <-> a = b.
Proof.
  revert b; induction a as [|x a IH]; intros [|y b]; cbn [text_eqb]; try (split; congruence).
  rewrite Bool.andb_true_iff, Z.eqb_eq, IH. split; [intros [-> ->]; reflexivity|intro H; inversion H; auto].
Qed.
Lemma text_eqb_refl a : text_eqb a a = true.
Proof. apply text_eqb_eq; reflexivity. Qed.
Lemma text_eqb_neq a b : text_eqb a b = false <-> a <> b.
Proof. rewrite <- text_eqb_eq. destruct (text_eqb a b); split; congruence. Qed.
Lemma existsb_text t l : existsb (text_eqb t) l = true <-> In t l.
Proof.
  rewrite existsb_exists. split; [intros [x [Hx E]]; apply text_eqb_eq in E; subst; exact Hx|].
  intro H; exists t; split; [exact H|apply text_eqb_refl].
Qed.

(* ------------------------------------------------------------------ *)
(** * Braces *)
Lemma upto_some t b : upto_last_close t = Some b <->
  exists m a, t = m ++ [125%Z] ++ a /\ b = m ++ [125%Z] /\ ~ In 125%Z a.
Proof.
  revert b; induction t as [|c r IH]; intro b; cbn [upto_last_close].
  - split; [discriminate|]. intros (m & a & H & _). destruct m; discriminate.
  - destruct (upto_last_close r) as [b'|] eqn:E.
    + destruct (proj1 (IH b') eq_refl) as (m & a & -> & -> & Ha). split.
      * intro H; inversion H; subst. exists (c :: m), a. split; [reflexivity|]. split; [reflexivity|exact Ha].
      * intros (m' & a' & H & -> & Ha'). f_equal.
        destruct m' as [|c' m'].
        { cbn in H. injection H as -> H. exfalso; apply Ha'. rewrite <- H. apply in_or_app; right; left; reflexivity. }
        cbn in H. injection H as -> H.
        assert (E2 : Some (m ++ [125%Z]) = Some (m' ++ [125%Z])).
        { apply IH. exists m', a'. split; [exact H|split; [reflexivity|exact Ha']]. }
        injection E2 as E2. cbn. rewrite E2. reflexivity.
    + assert (Hn : ~ In 125%Z r).
      { clear IH. revert E. induction r as [|x r IHr]; [intros _ []|]. cbn [upto_last_close].
        destruct (upto_last_close r) eqn:E'; [discriminate|]. unfold close_brace. destruct (Z.eqb_spec x 125); [discriminate|].
        intros _ [H|H]; [congruence|]. apply IHr; [reflexivity|exact H]. }
      unfold close_brace. destruct (Z.eqb_spec c 125) as [->|Hc].
      * split.
        { intro H; inversion H; subst. exists [], r. split; [reflexivity|split; [reflexivity|exact Hn]]. }
        { intros (m & a & H & -> & Ha). destruct m as [|c' m]; [reflexivity|]. cbn in H. injection H as _ H.
          exfalso; apply Hn. rewrite H. apply in_or_app; right; left; reflexivity. }
      * split; [discriminate|]. intros (m & a & H & -> & Ha). destruct m as [|c' m]; cbn in H; injection H as H1 H2; [congruence|].
        exfalso; apply Hn. rewrite H2. apply in_or_app; right; left; reflexivity.
Qed.
Lemma upto_none t : upto_last_close t = None <-> ~ In 125%Z t.
Proof.
  split.
  - intros E Hin. apply in_split in Hin. destruct Hin as (l1 & l2 & ->).
    (* take the last one *)
    revert E. induction l1 as [|x l1 IH]; cbn [List.app upto_last_close].
    + destruct (upto_last_close l2); [discriminate|]. unfold close_brace. rewrite Z.eqb_refl. discriminate.
    + destruct (upto_last_close (l1 ++ 125%Z :: l2)) eqn:E'; [discriminate|]. intro; apply IH; reflexivity.
  - intro Hn. destruct (upto_last_close t) eqn:E; [|reflexivity].
    apply upto_some in E. destruct E as (m & a & -> & _). exfalso; apply Hn. apply in_or_app; right; left; reflexivity.
Qed.

Lemma search_some t ext : search_braces t = Some ext <-> outer_braces t ext.
Proof.
  unfold outer_braces. revert ext; induction t as [|c r IH]; intro ext; cbn [search_braces].
  - split; [discriminate|]. intros (b & m & a & H & _). destruct b; discriminate.
  - unfold open_brace. destruct (Z.eqb_spec c 123) as [->|Hc].
    + destruct (upto_last_close r) as [b|] eqn:E.
      * apply upto_some in E. destruct E as (m & a & -> & -> & Ha). split.
        { intro H; inversion H; subst. exists [], m, a. cbn. rewrite <- app_assoc. intuition. }
        { intros (b' & m' & a' & H & -> & Hb & Ha'). destruct b' as [|x b'].
          - cbn in H. injection H as H. rewrite <- app_assoc in H.
            assert (E2 : upto_last_close (m ++ [125%Z] ++ a) = Some (m' ++ [125%Z])).
            { apply upto_some. exists m', a'. cbn in H |- *. auto. }
            assert (E1 : upto_last_close (m ++ [125%Z] ++ a) = Some (m ++ [125%Z])).
            { apply upto_some. exists m, a. auto. }
            congruence.
          - cbn in H. injection H as E0 H. exfalso; apply Hb; left; symmetry; exact E0. }
      * apply upto_none in E. split.
        { intro H. apply IH in H. destruct H as (b & m & a & -> & _). exfalso; apply E.
          apply in_or_app; right. apply in_or_app; left. right. apply in_or_app; right; left; reflexivity. }
        { intros (b & m & a & H & _). exfalso; apply E. destruct b as [|x b]; cbn in H; [injection H as H2|injection H as H1 H2].
          - rewrite H2. apply in_or_app; left. apply in_or_app; right; left; reflexivity.
          - rewrite H2. apply in_or_app; right. right. apply in_or_app; left. apply in_or_app; right; left; reflexivity. }
    + rewrite IH. split; intros (b & m & a & H & E & Hb & Ha).
      * exists (c :: b), m, a. rewrite H. split; [reflexivity|]. split; [exact E|]. split; [intros [H'|H']; [congruence|auto]|exact Ha].
      * destruct b as [|x b]; cbn in H; injection H as H1 H2; [congruence|]. exists b, m, a. split; [exact H2|]. split; [exact E|].
        split; [intro H'; apply Hb; right; exact H'|exact Ha].
Qed.
Lemma outer_unique t e1 e2 : outer_braces t e1 -> outer_braces t e2 -> e1 = e2.
Proof. rewrite <- !search_some. congruence. Qed.
Lemma search_none t : search_braces t = None <-> ~ has_braces t.
Proof.
  unfold has_braces. induction t as [|c r IH]; cbn [search_braces].
  - split; [|reflexivity]. intros _ (i & j & _ & H & _). destruct i; discriminate.
  - unfold open_brace. destruct (Z.eqb_spec c 123) as [->|Hc].
    + destruct (upto_last_close r) as [b|] eqn:E.
      * split; [discriminate|]. intro H; exfalso; apply H. apply upto_some in E. destruct E as (m & a & -> & _).
        exists 0, (S (List.length m)). split; [lia|]. split; [reflexivity|]. cbn. rewrite nth_error_app2 by lia. rewrite Nat.sub_diag. reflexivity.
      * apply upto_none in E. rewrite IH. split; intros H (i & j & Hij & Hi & Hj).
        { destruct j as [|j]; [lia|]. cbn in Hj. apply E. eapply nth_error_In, Hj. }
        { apply H. exists (S i), (S j). split; [lia|auto]. }
    + rewrite IH. split; intros H (i & j & Hij & Hi & Hj).
      * destruct i as [|i]; [cbn in Hi; congruence|]. destruct j as [|j]; [lia|]. apply H. exists i, j. split; [lia|auto].
      * apply H. exists (S i), (S j). split; [lia|auto].
Qed.
Lemma outer_iff_has t : (exists ext, outer_braces t ext) <-> has_braces t.
Proof.
  split.
  - intros [ext H]. apply search_some in H. destruct (search_none t) as [_ H2].
    assert (D : has_braces t \/ ~ has_braces t).
    { destruct H as []. unfold has_braces. destruct (search_braces t) eqn:E.
      - apply search_some in E. destruct E as (b & m & a & -> & _). left.
        exists (List.length b), (List.length b + S (List.length m)). split; [lia|]. split.
        + rewrite nth_error_app2, Nat.sub_diag by lia. reflexivity.
        + rewrite nth_error_app2 by lia. replace (_ + _ - _) with (S (List.length m)) by lia. cbn.
          rewrite <- app_assoc. rewrite nth_error_app2, Nat.sub_diag by lia. reflexivity.
      - right. apply search_none; exact E. }
    destruct D as [D|D]; [exact D|]. rewrite (H2 D) in H. discriminate.
  - intro H. destruct (search_braces t) as [e|] eqn:E; [exists e; apply search_some; exact E|].
    exfalso. apply search_none in E. auto.
Qed.

(* ------------------------------------------------------------------ *)
(** * The first integer *)
Lemma leading_spec digit t : exists number after, t = number ++ after /\ Forall2 (fun c d => digit c = Some d) number (leading_digits digit t)
  /\ (forall c r, after = c :: r -> digit c = None).
Proof.
  induction t as [|c r IH]; cbn [leading_digits]; [exists [], []; split; [reflexivity|split; [constructor|discriminate]]|].
  destruct (digit c) as [d|] eqn:E.
  - destruct IH as (n & a & H & F & Ha). exists (c :: n), a. rewrite H at 1. split; [reflexivity|]. split; [constructor; assumption|exact Ha].
  - exists [], (c :: r). split; [reflexivity|split; [constructor|]]. intros c' r' H; injection H as -> ->; exact E.
Qed.
Lemma leading_char digit number ds after : Forall2 (fun c d => digit c = Some d) number ds ->
  (forall c r, after = c :: r -> digit c = None) -> leading_digits digit (number ++ after) = ds.
Proof.
  intros F Ha. induction F as [|c d n ds E F IH].
  - cbn. destruct after as [|c r]; [reflexivity|]. cbn. rewrite (Ha c r eq_refl). reflexivity.
  - cbn. rewrite E, IH. reflexivity.
Qed.
Lemma leading_nil digit t : leading_digits digit t = [] <-> (forall c r, t = c :: r -> digit c = None).
Proof.
  destruct t as [|c r]; cbn [leading_digits]; [split; [intros _ ? ?; discriminate|reflexivity]|].
  destruct (digit c) eqn:E; split; intro H; try discriminate.
  - specialize (H c r eq_refl). congruence.
  - intros c' r' H'; injection H' as -> _; exact E.
  - reflexivity.
Qed.

(* a match at the start of the text: a sign and all the digits, or all the digits *)
Lemma signed_at_some digit t neg ds : digit minus = None ->
  signed_at digit t = Some (neg, ds) <->
  ds <> [] /\ exists number after, t = (if neg then minus :: number else number) ++ after
    /\ Forall2 (fun c d => digit c = Some d) number ds /\ (forall c r, after = c :: r -> digit c = None).
Proof.
  intro Hm. unfold signed_at. destruct t as [|c r].
  - split; [discriminate|]. intros [Hd (n & a & H & F & _)]. destruct neg; [discriminate|].
    destruct n; [inversion F; congruence|discriminate].
  - destruct (Z.eqb_spec c minus) as [->|Hc].
    + cbn [leading_digits]. rewrite Hm. destruct (leading_digits digit r) as [|d l] eqn:E.
      * split; [discriminate|]. intros [Hd (n & a & H & F & Ha)]. exfalso. destruct neg.
        { cbn in H. injection H as ->. rewrite (leading_char _ _ _ _ F Ha) in E. congruence. }
        { destruct n as [|x n]; [inversion F; subst; congruence|]. cbn in H. injection H as <- H. inversion F; subst. congruence. }
      * split.
        { intro H; inversion H; subst. split; [discriminate|]. destruct (leading_spec digit r) as (n & a & -> & F & Ha).
          exists n, a. cbn. rewrite E in F. auto. }
        { intros [Hd (n & a & H & F & Ha)]. destruct neg.
          - cbn in H. injection H as ->. rewrite (leading_char _ _ _ _ F Ha) in E. subst. reflexivity.
          - destruct n as [|x n]; [inversion F; subst; congruence|]. cbn in H. injection H as <- H. inversion F; subst. congruence. }
    + destruct (leading_digits digit (c :: r)) as [|d l] eqn:E.
      * split; [discriminate|]. intros [Hd (n & a & H & F & Ha)]. exfalso. destruct neg; [cbn in H; congruence|].
        rewrite H, (leading_char _ _ _ _ F Ha) in E. congruence.
      * split.
        { intro H; inversion H; subst. split; [discriminate|]. destruct (leading_spec digit (c :: r)) as (n & a & H1 & F & Ha).
          exists n, a. rewrite E in F. auto. }
        { intros [Hd (n & a & H & F & Ha)]. destruct neg; [cbn in H; congruence|]. rewrite H, (leading_char _ _ _ _ F Ha) in E. subst. reflexivity. }
Qed.
Lemma signed_at_none digit t : digit minus = None -> signed_at digit t = None ->
  (forall c r, t = c :: r -> digit c = None) /\ (forall c r, t = minus :: c :: r -> digit c = None).
Proof.
  intros Hm. unfold signed_at. destruct t as [|c r]; [intros _; split; intros; discriminate|].
  destruct (Z.eqb_spec c minus) as [->|Hc].
  - cbn [leading_digits]. rewrite Hm. destruct (leading_digits digit r) eqn:E; [|discriminate]. intros _. split.
    + intros c' r' H; injection H as <- _; exact Hm.
    + intros c' r' H; injection H as ->. apply (proj1 (leading_nil _ _) E c' r' eq_refl).
  - destruct (leading_digits digit (c :: r)) eqn:E; [|discriminate]. intros _. split; [apply leading_nil; exact E|].
    intros c' r' H; congruence.
Qed.

Lemma search_signed_some digit t neg ds : digit minus = None ->
  search_signed digit t = Some (neg, ds) -> first_integer digit t neg ds.
Proof.
  intro Hm. induction t as [|c r IH]; cbn [search_signed]; [discriminate|].
  destruct (signed_at digit (c :: r)) as [[g l]|] eqn:E.
  - intro H; inversion H; subst. apply signed_at_some in E; [|exact Hm]. destruct E as [Hd (n & a & H1 & F & Ha)].
    assert (Hn : n <> []) by (intros ->; inversion F; congruence).
    destruct neg.
    + exists [minus], n, a. rewrite H1. split; [reflexivity|]. split; [exact F|]. split; [exact Hn|]. split.
      * intros c' [<-|[]]; exact Hm.
      * split; [exact Ha|]. split; [intros _; exists []; reflexivity|auto].
    + exists [], n, a. rewrite H1. split; [reflexivity|]. split; [exact F|]. split; [exact Hn|]. split; [intros c' []|].
      split; [exact Ha|]. split; [discriminate|intros [b Hb]; destruct b; discriminate].
  - intro H. destruct (IH H) as (b & n & a & -> & F & Hn & Hb & Ha & Hs).
    destruct (signed_at_none digit _ Hm E) as [H1 H2].
    exists (c :: b), n, a. split; [reflexivity|]. split; [exact F|]. split; [exact Hn|]. split.
    + intros c' [<-|Hc]; [eapply H1; reflexivity|auto].
    + split; [exact Ha|]. rewrite Hs. split; intros [b' Hb'].
      * exists (c :: b'). rewrite Hb'. reflexivity.
      * destruct b' as [|x b'].
        { cbn in Hb'. injection Hb' as -> ->. cbn in H2. destruct n as [|y n]; [congruence|]. inversion F; subst.
          specialize (H2 y (n ++ a) eq_refl). congruence. }
        { cbn in Hb'. injection Hb' as -> ->. exists b'; reflexivity. }
Qed.
Lemma first_integer_unique digit t n1 d1 n2 d2 : first_integer digit t n1 d1 -> first_integer digit t n2 d2 -> n1 = n2 /\ d1 = d2.
Proof.
  intros (b & n & a & -> & F & Hn & Hb & Ha & Hs) (b' & n' & a' & H & F' & Hn' & Hb' & Ha' & Hs').
  assert (E : b = b' /\ n ++ a = n' ++ a').
  { clear Hs Hs'. revert b' H Hb'. induction b as [|x b IH]; intros [|y b'] H Hb'; cbn in H.
    - auto.
    - destruct n as [|z n]; [congruence|]. inversion F; subst. cbn in H. injection H as -> _. rewrite (Hb' y (or_introl eq_refl)) in H2. discriminate.
    - destruct n' as [|z n']; [congruence|]. inversion F'; subst. cbn in H. injection H as -> _. rewrite (Hb z (or_introl eq_refl)) in H2. discriminate.
    - injection H as -> H. destruct (IH (fun c Hc => Hb c (or_intror Hc)) b' H (fun c Hc => Hb' c (or_intror Hc))) as [-> E]. auto. }
  destruct E as [-> E]. split.
  - apply Bool.eq_iff_eq_true. rewrite Hs, Hs'. reflexivity.
  - rewrite <- (leading_char digit n d1 a F Ha), E. apply leading_char; assumption.
Qed.
Lemma search_signed_none digit t : digit minus = None ->
  search_signed digit t = None <-> (forall c, In c t -> digit c = None).
Proof.
  intro Hm. induction t as [|c r IH]; cbn [search_signed]; [split; [intros _ ? []|reflexivity]|].
  destruct (signed_at digit (c :: r)) as [[g l]|] eqn:E.
  - split; [discriminate|]. intro H. apply signed_at_some in E; [|exact Hm]. destruct E as [Hd (n & a & H1 & F & Ha)].
    destruct n as [|x n]; [inversion F; congruence|]. inversion F as [|x' d' n' l' Ex _]; subst.
    rewrite (H x) in Ex; [discriminate|]. rewrite H1. destruct g; [right; left|left]; reflexivity.
  - rewrite IH. destruct (signed_at_none digit _ Hm E) as [H1 _]. split; intros H c' Hc.
    + destruct Hc as [<-|Hc]; [eapply H1; reflexivity|auto].
    + apply H; right; exact Hc.
Qed.

Lemma int_of_value ds : int_of ds = digits_value ds.
Proof.
  unfold int_of.
  assert (G : forall acc, fold_left (fun acc d => (acc * 10 + d)%Z) ds acc = (acc * 10 ^ Z.of_nat (List.length ds) + digits_value ds)%Z).
  { induction ds as [|d r IH]; intro acc; cbn [fold_left digits_value List.length]; [cbn; lia|].
    rewrite IH, Nat2Z.inj_succ, Z.pow_succ_r by lia. ring. }
  rewrite G. lia.
Qed.

(* the three outcomes *)
Lemma find_found py t neg ds : python_ok py -> first_integer (py_digit py) t neg ds ->
  find_first_signed_integer py t =
  if (0 <? py_max_digits py)%Z && (py_max_digits py <? Z.of_nat (List.length ds))%Z then Raised ValueError
  else Ok (Some (if neg then - digits_value ds else digits_value ds)%Z).
Proof.
  intros Hpy H. unfold find_first_signed_integer. destruct (search_signed (py_digit py) t) as [[g l]|] eqn:E.
  - apply search_signed_some in E; [|apply (minus_no_digit _ Hpy)]. destruct (first_integer_unique _ _ _ _ _ _ E H) as [-> ->].
    rewrite int_of_value. reflexivity.
  - pose proof (proj1 (search_signed_none _ _ (minus_no_digit _ Hpy)) E) as E'. destruct H as (b & n & a & -> & F & Hn & _).
    destruct n as [|x n]; [congruence|]. inversion F; subst. rewrite E' in H1; [discriminate|].
    apply in_or_app; right; left; reflexivity.
Qed.
Lemma find_nothing py t : python_ok py ->
  find_first_signed_integer py t = Ok None <-> (forall c, In c t -> py_digit py c = None).
Proof.
  intro Hpy. rewrite <- (search_signed_none (py_digit py) t (minus_no_digit _ Hpy)). unfold find_first_signed_integer.
  destruct (search_signed (py_digit py) t) as [[g l]|]; [|split; reflexivity].
  destruct (_ && _)%bool; split; discriminate.
Qed.
Lemma some_first_integer py t : python_ok py -> (exists c d, In c t /\ py_digit py c = Some d) ->
  exists neg ds, first_integer (py_digit py) t neg ds.
Proof.
  intros Hpy (c & d & Hc & E). destruct (search_signed (py_digit py) t) as [[g l]|] eqn:E1.
  - exists g, l. apply search_signed_some; [apply (minus_no_digit _ Hpy)|exact E1].
  - pose proof (proj1 (search_signed_none _ _ (minus_no_digit _ Hpy)) E1) as E'. rewrite (E' c Hc) in E. discriminate.
Qed.

(* ------------------------------------------------------------------ *)
(** * Objects *)
Lemma trim_ok py t d : trim_and_load_json py t = Ok d <-> object_in py t d.
Proof.
  unfold trim_and_load_json, object_in. split.
  - destruct (search_braces t) as [e|] eqn:E; [|discriminate]. destruct (py_loads py e) eqn:E2; try discriminate.
    intro H; inversion H; subst. exists e. split; [apply search_some; exact E|exact E2].
  - intros (e & H & L). apply search_some in H. rewrite H, L. reflexivity.
Qed.
Lemma trim_invalid py t i : trim_and_load_json py t = Invalid i <->
  (i = NoBrackets /\ ~ has_braces t) \/ (i = BadJson /\ exists e, outer_braces t e /\ py_loads py e = DecodeError).
Proof.
  unfold trim_and_load_json. destruct (search_braces t) as [e|] eqn:E.
  - assert (Ho := proj1 (search_some _ _) E). assert (Hh : has_braces t) by (apply outer_iff_has; eauto).
    destruct (py_loads py e) eqn:E2; split; intro H; try discriminate.
    + destruct H as [[_ H]|[_ (e' & H & L)]]; [contradiction|]. rewrite (outer_unique _ _ _ H Ho) in L. congruence.
    + inversion H; subst. right. split; [reflexivity|eauto].
    + destruct H as [[_ H]|[-> _]]; [contradiction|reflexivity].
    + destruct H as [[_ H]|[_ (e' & H & L)]]; [contradiction|]. rewrite (outer_unique _ _ _ H Ho) in L. congruence.
  - apply search_none in E. split; intro H.
    + inversion H; subst; left; auto.
    + destruct H as [[-> _]|[_ (e & H & _)]]; [reflexivity|]. exfalso; apply E, outer_iff_has; eauto.
Qed.
Lemma trim_raised py t e : trim_and_load_json py t = Raised e <-> exists x, outer_braces t x /\ py_loads py x = LoadsRaises e.
Proof.
  unfold trim_and_load_json. split.
  - destruct (search_braces t) as [x|] eqn:E; [|discriminate]. destruct (py_loads py x) eqn:E2; try discriminate.
    intro H; inversion H; subst. exists x. split; [apply search_some; exact E|exact E2].
  - intros (x & H & L). apply search_some in H. rewrite H, L. reflexivity.
Qed.

(* ------------------------------------------------------------------ *)
(** * Validation *)
Lemma all_in_set_strings l a : Forall (fun v => exists t, v = JStr t) l ->
  exists b, all_in_set l a = Some b /\ (b = true <-> Forall (fun v => exists t, v = JStr t /\ In t a) l).
Proof.
  intro H. induction H as [|v r [t ->] Hr (b & E & Hb)]; [exists true; split; [reflexivity|split; auto]|].
  cbn [all_in_set in_set]. rewrite E. eexists; split; [reflexivity|]. rewrite Bool.andb_true_iff, existsb_text, Hb. split.
  - intros [H1 H2]. constructor; eauto.
  - intro H1. inversion H1 as [|v r' (t' & E' & Ht) H2]; subst. inversion E'; subst. auto.
Qed.
Lemma forallb_is_str l : forallb is_str l = true <-> Forall (fun v => exists t, v = JStr t) l.
Proof.
  rewrite forallb_forall, Forall_forall. split; intros H v Hv; specialize (H v Hv).
  - destruct v; try discriminate. eauto.
  - destruct H as [t ->]. reflexivity.
Qed.
Lemma wrong_length_spec enforce l : wrong_length enforce l = false <-> (forall n, enforce = Some n -> Z.of_nat (List.length l) = n).
Proof.
  unfold wrong_length. destruct enforce as [n|].
  - destruct (Z.eqb_spec n (Z.of_nat (List.length l))) as [E|E]; cbn; split; intro H.
    + intros m Hm; inversion Hm; subst; reflexivity.
    + reflexivity.
    + discriminate.
    + exfalso; apply E. symmetry; apply H; reflexivity.
  - split; [intros _ n Hn; discriminate|reflexivity].
Qed.

Lemma validate_statements_ok d key allowed enforce :
  validate_statements d key allowed enforce = Ok tt <->
  exists l, statement_list d key l
    /\ (forall a, allowed = Some a -> Forall (fun v => exists t, v = JStr t /\ In t a) l)
    /\ (forall n, enforce = Some n -> Z.of_nat (List.length l) = n).
Proof.
  unfold validate_statements, statement_list. destruct (dget key d) as [v|] eqn:E.
  2:{ split; [discriminate|]. intros (l & [H _] & _). discriminate. }
  destruct v as [| | | | |l|]; try (split; [discriminate|intros (l' & [H _] & _); discriminate]).
  destruct (forallb is_str l) eqn:F; cbn [negb].
  2:{ split; [discriminate|]. intros (l' & [H F'] & _). inversion H; subst. apply forallb_is_str in F'. congruence. }
  apply forallb_is_str in F.
  assert (A : exists b, match allowed with None => Some true | Some a => all_in_set l a end = Some b /\
    (b = true <-> forall a, allowed = Some a -> Forall (fun v => exists t, v = JStr t /\ In t a) l)).
  { destruct allowed as [a|].
    - destruct (all_in_set_strings l a F) as (b & Eb & Hb). exists b. split; [exact Eb|]. rewrite Hb. split.
      + intros H a' Ha; inversion Ha; subst; exact H.
      + intro H; apply H; reflexivity.
    - exists true. split; [reflexivity|]. split; [intros _ a Ha; discriminate|reflexivity]. }
  destruct A as (b & -> & Hb). destruct b.
  - destruct (wrong_length enforce l) eqn:W.
    + split; [discriminate|]. intros (l' & [H _] & _ & H3). inversion H; subst. apply wrong_length_spec in H3. congruence.
    + split; [|reflexivity]. intros _. exists l. split; [auto|]. split; [apply Hb; reflexivity|apply wrong_length_spec; exact W].
  - split; [discriminate|]. intros (l' & [H _] & H2 & _). inversion H; subst. destruct Hb as [_ Hb]. discriminate (Hb H2).
Qed.
Lemma validate_statements_never_raises d key allowed enforce e : validate_statements d key allowed enforce <> Raised e.
Proof.
  unfold validate_statements. destruct (dget key d) as [v|]; [|discriminate]. destruct v as [| | | | |l|]; try discriminate.
  destruct (forallb is_str l) eqn:F; cbn [negb]; [|discriminate]. apply forallb_is_str in F.
  destruct allowed as [a|].
  - destruct (all_in_set_strings l a F) as (b & -> & _). destruct b; [|discriminate]. destruct (wrong_length enforce l); discriminate.
  - destruct (wrong_length enforce l); discriminate.
Qed.

Lemma keys_are_spec d ks : keys_are d ks = true <-> (forall k, In k (keys d) <-> In k ks).
Proof.
  unfold keys_are, keys. rewrite Bool.andb_true_iff, !forallb_forall. split.
  - intros [H1 H2] k. split.
    + intro H. apply in_map_iff in H. destruct H as (kv & <- & H). apply existsb_text, H1, H.
    + intro H. specialize (H2 k H). apply existsb_exists in H2. destruct H2 as (kv & Hkv & E). apply text_eqb_eq in E. subst.
      apply in_map; exact Hkv.
  - intro H. split.
    + intros kv Hkv. apply existsb_text, H, in_map, Hkv.
    + intros k Hk. apply H in Hk. apply in_map_iff in Hk. destruct Hk as (kv & E & Hkv). apply existsb_exists. exists kv.
      split; [exact Hkv|apply text_eqb_eq; congruence].
Qed.
Lemma dget_in k d : In k (keys d) -> exists v, dget k d = Some v.
Proof.
  induction d as [|[k' v] r IH]; [intros []|]. cbn. destruct (text_eqb k k') eqn:E; [eauto|].
  intros [<-|H]; [rewrite text_eqb_refl in E; discriminate|auto].
Qed.
Lemma verdict_keys d : keys_are d [lit "verdict"; lit "analysis"] = true <->
  (forall k, In k (keys d) <-> k = lit "verdict" \/ k = lit "analysis").
Proof.
  rewrite keys_are_spec. split; intros H k; rewrite H; cbn [In]; intuition.
Qed.

Lemma values_ok l a : validate_values l (Some a) = Ok tt <-> Forall (verdict a) l.
Proof.
  induction l as [|v r IH]; cbn [validate_values]; [split; auto|].
  destruct v as [| | | | | |d]; try (split; [discriminate|intro H; inversion H as [|x y (d1 & t1 & E1 & _) _]; discriminate]).
  destruct (keys_are d [lit "verdict"; lit "analysis"]) eqn:K; cbn [negb].
  2:{ split; [discriminate|]. intro H; inversion H as [|x y (d' & t & E & Hk & _) _]; subst. inversion E; subst.
      apply verdict_keys in Hk. congruence. }
  pose proof (proj1 (verdict_keys _) K) as K'; clear K; rename K' into K. destruct (dget_in (lit "verdict") d) as [w E]; [apply K; auto|]. rewrite E.
  destruct w as [| | | |t| |]; cbn [in_set];
    try (split; [discriminate|intro H; inversion H as [|x y (d' & t' & E' & _ & E2 & _) _]; subst; inversion E'; subst; congruence]).
  destruct (existsb (text_eqb t) a) eqn:X.
  - rewrite IH. apply existsb_text in X. split; [intro H; constructor; [exists d, t; auto|exact H]|intro H; inversion H; assumption].
  - split; [discriminate|]. intro H; inversion H as [|x y (d' & t' & E' & _ & E2 & Hin) _]; subst. inversion E'; subst.
    rewrite E in E2; inversion E2; subst. apply existsb_text in Hin. congruence.
Qed.
Lemma values_raise l a e : validate_values l (Some a) = Raised e ->
  e = TypeError /\ exists d v, In (JObj d) l /\ dget (lit "verdict") d = Some v /\ unhashable v.
Proof.
  induction l as [|v r IH]; cbn [validate_values]; [discriminate|].
  destruct v as [| | | | | |d]; try discriminate.
  destruct (keys_are d [lit "verdict"; lit "analysis"]) eqn:K; cbn [negb]; [|discriminate].
  pose proof (proj1 (verdict_keys _) K) as K'; clear K; rename K' into K. destruct (dget_in (lit "verdict") d) as [w E]; [apply K; auto|]. rewrite E.
  destruct (in_set w a) as [[|]|] eqn:W; [|discriminate|].
  - intro H. destruct (IH H) as (-> & d' & v & Hin & Hv). split; [reflexivity|]. exists d', v. split; [right; exact Hin|exact Hv].
  - intro H; inversion H; subst. split; [reflexivity|]. exists d, w. split; [left; reflexivity|]. split; [exact E|].
    destruct w; try discriminate; unfold unhashable; eauto.
Qed.
Lemma validate_verdicts_ok d key a n : validate_verdicts d key (Some a) (Some n) = Ok tt <-> exists l, verdict_list d key a n l.
Proof.
  unfold validate_verdicts, verdict_list. destruct (dget key d) as [v|] eqn:E.
  2:{ split; [discriminate|]. intros (l & H & _). discriminate. }
  destruct v as [| | | | |l|]; try (split; [discriminate|intros (l' & H & _); discriminate]).
  destruct (wrong_length (Some n) l) eqn:W.
  - split; [discriminate|]. intros (l' & H & Hn & _). inversion H; subst. cbn in W. rewrite Z.eqb_refl in W. discriminate.
  - rewrite values_ok. split.
    + intro H. exists l. split; [reflexivity|]. split; [|exact H]. apply (proj1 (wrong_length_spec _ _) W). reflexivity.
    + intros (l' & H & _ & F). inversion H; subst. exact F.
Qed.
Lemma validate_verdicts_raise d key a n e : validate_verdicts d key (Some a) (Some n) = Raised e ->
  e = TypeError /\ exists l d' v, dget key d = Some (JArr l) /\ In (JObj d') l /\ dget (lit "verdict") d' = Some v /\ unhashable v.
Proof.
  unfold validate_verdicts. destruct (dget key d) as [v|] eqn:E; [|discriminate]. destruct v as [| | | | |l|]; try discriminate.
  destruct (wrong_length (Some n) l); [discriminate|]. intro H. destruct (values_raise _ _ _ H) as (-> & d' & v & H').
  split; [reflexivity|]. exists l, d', v. auto.
Qed.
(* what the other two arguments do when left out *)
Lemma values_free l : validate_values l None = Ok tt <->
  Forall (fun v => exists d, v = JObj d /\ (forall k, In k (keys d) <-> k = lit "verdict" \/ k = lit "analysis")) l.
Proof.
  induction l as [|v r IH]; cbn [validate_values]; [split; auto|].
  destruct v as [| | | | | |d]; try (split; [discriminate|intro H; inversion H as [|x y (d1 & E1 & _) _]; discriminate]).
  destruct (keys_are d [lit "verdict"; lit "analysis"]) eqn:K; cbn [negb].
  - rewrite IH. pose proof (proj1 (verdict_keys _) K) as K'; clear K; rename K' into K. split; [intro H; constructor; [exists d; auto|exact H]|intro H; inversion H; assumption].
  - split; [discriminate|]. intro H; inversion H as [|x y (d' & E & Hk) _]; subst. inversion E; subst. apply verdict_keys in Hk. congruence.
Qed.
