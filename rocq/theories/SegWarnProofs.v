(* C128: what the warning about overlapping masks says. *)
From Verif Require Import Prelude Counting CacheModel CacheSpec ClsModel ClsSpec FlowModel DetFlowModel SegModel SegSpec SegPixelProofs SegValidProofs
  SegWarnModel SegWarnSpec.
From Coq Require Import QArith String.
Local Notation length := List.length (only parsing).
Local Open Scope nat_scope.
Local Open Scope list_scope.

Lemma warn_loop_masks shape bs : forall st,
  option_map fst (warn_loop shape st bs) = validate_loop shape (option_map fst st) bs.
Proof.
  induction bs as [|b t IH]; intros st; [reflexivity|]. cbn [warn_loop validate_loop].
  destruct (list_eq_dec Z.eq_dec shape (bm_shape b)); [|reflexivity].
  destruct st as [[acc over]|]; cbn [option_map fst].
  - destruct (bany (band acc (bm_bits b))).
    + specialize (IH (Some (acc, bor over (band acc (bm_bits b))))). cbn [option_map fst] in IH. rewrite <- IH.
      destruct (warn_loop _ _ t) as [[o f]|]; reflexivity.
    + specialize (IH (Some (bor acc (bm_bits b), over))). cbn [option_map fst] in IH. rewrite <- IH.
      destruct (warn_loop _ _ t) as [[o f]|]; reflexivity.
  - specialize (IH (Some (bm_bits b, map (fun _ => false) (bm_bits b)))). cbn [option_map fst] in IH. rewrite <- IH.
    destruct (warn_loop _ _ t) as [[o f]|]; reflexivity.
Qed.

Lemma existsb_cons_iff p (b b' : bitmask) t o :
  taken (b :: t) (b' :: o) p = (px b p && negb (px b' p)) || taken t o p.
Proof. reflexivity. Qed.
Lemma taken_spec inp out p : taken inp out p = true <->
  exists j b b', nth_error inp j = Some b /\ nth_error out j = Some b' /\ px b p = true /\ px b' p = false.
Proof.
  revert out. induction inp as [|b t IH]; intros [|b' o]; [unfold taken; cbn [combine existsb]; (split; [discriminate|intros (j & c & c' & A & B & _); destruct j; discriminate])..|].
  rewrite existsb_cons_iff, orb_true_iff, IH, andb_true_iff, negb_true_iff. split.
  - intros [[A B]|(j & c & c' & A)]; [exists 0, b, b'; auto|exists (S j), c, c'; exact A].
  - intros ([|j] & c & c' & A & B & C); [left|right; exists j, c, c'; auto]. cbn in A, B. injection A as <-. injection B as <-. exact C.
Qed.

(* the loop: the overlap accumulator gathers the pixels taken out, and each of them was
   seen before *)
Lemma warn_loop_over shape N bs : forall acc over out fin,
  length acc = N -> length over = N -> Forall (bits_ok N) bs ->
  warn_loop shape (Some (acc, over)) bs = Some (out, fin) ->
  exists acc' over', fin = Some (acc', over') /\ length over' = N /\
    (forall p, nth p over' false = nth p over false || taken bs out p) /\
    (forall j b b' p, nth_error bs j = Some b -> nth_error out j = Some b' -> px b p = true -> px b' p = false ->
       nth p acc false = true \/ exists i c, i < j /\ nth_error bs i = Some c /\ px c p = true).
Proof.
  induction bs as [|b t IH]; intros acc over out fin Ha Ho Hb H; cbn [warn_loop] in H.
  - injection H as <- <-. exists acc, over. split; [reflexivity|]. split; [exact Ho|].
    split; [intros p; unfold taken; cbn; rewrite orb_false_r; reflexivity|intros [|j] ? ? ? A; discriminate].
  - pose proof (Forall_inv Hb) as Hb1. pose proof (Forall_inv_tail Hb) as Hb2. unfold bits_ok in Hb1.
    destruct (list_eq_dec Z.eq_dec shape (bm_shape b)); [|discriminate].
    destruct (bany (band acc (bm_bits b))) eqn:Ov.
    + set (b0 := set_bits b (bclear (bm_bits b) (band acc (bm_bits b)))) in *.
      assert (PX : forall p, px b0 p = px b p && negb (nth p acc false)).
      { intros p. unfold b0, px, set_bits. cbn [bm_bits]. rewrite nth_bclear by (rewrite band_length; lia).
        rewrite nth_band by lia. destruct (nth p (bm_bits b) false), (nth p acc false); reflexivity. }
      assert (Lb : length (band acc (bm_bits b)) = N) by (rewrite band_length; lia).
      destruct (warn_loop shape (Some (acc, bor over (band acc (bm_bits b)))) t) as [[o f]|] eqn:E; [|discriminate]. injection H as <- <-.
      destruct (IH acc (bor over (band acc (bm_bits b))) o f Ha ltac:(rewrite bor_length; lia) Hb2 E) as (acc' & over' & -> & L & P & Q).
      exists acc', over'. split; [reflexivity|]. split; [exact L|]. split.
      * intros p. rewrite P, existsb_cons_iff, PX, nth_bor, nth_band by lia. fold (px b p).
        destruct (nth p over false), (nth p acc false), (px b p), (taken t o p); reflexivity.
      * intros [|j] c c' p Hc Hc' H1 H2; cbn [nth_error] in Hc, Hc'.
        -- injection Hc as <-. injection Hc' as <-. rewrite PX, H1 in H2. left. destruct (nth p acc false); [reflexivity|discriminate].
        -- destruct (Q j c c' p Hc Hc' H1 H2) as [A|(i & d & A & B & C)]; [auto|]. right. exists (S i), d. split; [lia|auto].
    + destruct (warn_loop shape (Some (bor acc (bm_bits b), over)) t) as [[o f]|] eqn:E; [|discriminate]. injection H as <- <-.
      destruct (IH (bor acc (bm_bits b)) over o f ltac:(rewrite bor_length; lia) Ho Hb2 E) as (acc' & over' & -> & L & P & Q).
      exists acc', over'. split; [reflexivity|]. split; [exact L|]. split.
      * intros p. rewrite P, existsb_cons_iff, andb_negb_r. reflexivity.
      * intros [|j] c c' p Hc Hc' H1 H2; cbn [nth_error] in Hc, Hc'.
        -- injection Hc as <-. injection Hc' as <-. congruence.
        -- destruct (Q j c c' p Hc Hc' H1 H2) as [A|(i & d & A & B & C)].
           ++ rewrite nth_bor in A by lia. apply orb_true_iff in A. destruct A as [A|A]; [auto|]. right. exists 0, b. split; [lia|]. split; [reflexivity|exact A].
           ++ right. exists (S i), d. split; [lia|auto].
Qed.

Lemma countb_seq_nth (l : list bool) (f : nat -> bool) : (forall p, p < length l -> f p = nth p l false) ->
  countb (fun b => b) l = countb f (seq 0 (length l)).
Proof.
  assert (G : forall k, (forall p, p < length l -> f (k + p) = nth p l false) -> countb (fun b => b) l = countb f (seq k (length l))).
  { induction l as [|b t IH]; intros k H; [reflexivity|]. cbn [length seq].
    change (countb (fun b => b) (b :: t)) with (countb (fun b => b) ([b] ++ t)).
    change (countb f (k :: seq (S k) (length t))) with (countb f ([k] ++ seq (S k) (length t))).
    rewrite !countb_app. f_equal.
    - unfold countb. cbn [filter]. pose proof (H 0 ltac:(cbn; lia)) as H0. rewrite Nat.add_0_r in H0. cbn in H0. rewrite H0. destruct b; reflexivity.
    - apply IH. intros p Hp. replace (S k + p) with (k + S p) by lia. apply (H (S p)). cbn. lia. }
  intros H. apply (G 0). exact H.
Qed.

Section Validate.
  Variables (uid key : string) (shape : list Z) (N : nat).
  Variables (bs out : list bitmask) (ws : list warning).
  Hypothesis Hb : Forall (bits_ok N) bs.
  Hypothesis Hv : validate_warn uid key shape bs = Some (out, ws).

  Lemma vw_masks : validate_bitmasks shape bs = Some out.
  Proof.
    unfold validate_warn in Hv. unfold validate_bitmasks. change (@None (list bool)) with (option_map (@fst (list bool) (list bool)) None).
    rewrite <- warn_loop_masks. destruct (warn_loop shape None bs) as [[o [[a v]|]]|]; [| |discriminate]; injection Hv as -> _; reflexivity.
  Qed.

  Lemma vw_over :
    (forall p, taken bs out p = true -> p < N) /\
    (ws = if existsb (taken bs out) (seq 0 N) then [MkWarn key uid (Z.of_nat (countb (taken bs out) (seq 0 N))) (Z.of_nat N)] else []) /\
    (forall j b b' p, nth_error bs j = Some b -> nth_error out j = Some b' -> px b p = true -> px b' p = false ->
       exists i c, i < j /\ nth_error bs i = Some c /\ px c p = true).
  Proof.
    assert (HN : forall p, taken bs out p = true -> p < N).
    { intros p Hp. apply taken_spec in Hp. destruct Hp as (j & b & b' & A & _ & B & _). rewrite Forall_forall in Hb.
      specialize (Hb b (nth_error_In _ _ A)). unfold bits_ok in Hb. destruct (Nat.lt_ge_cases p N) as [C|C]; [exact C|].
      unfold px in B. rewrite nth_overflow in B by lia. discriminate. }
    split; [exact HN|]. unfold validate_warn in Hv. destruct bs as [|b t] eqn:Eb.
    - cbn [warn_loop] in Hv. injection Hv as <- <-. split; [|intros [|j] ? ? ? A; discriminate].
      assert (E : existsb (taken [] []) (seq 0 N) = false).
      { destruct (existsb (taken [] []) (seq 0 N)) eqn:E; [|reflexivity]. apply existsb_exists in E. destruct E as (p & _ & E). discriminate. }
      rewrite E. reflexivity.
    - cbn [warn_loop] in Hv. destruct (list_eq_dec Z.eq_dec shape (bm_shape b)); [|discriminate].
      pose proof (Forall_inv Hb) as Hb1. pose proof (Forall_inv_tail Hb) as Hb2. unfold bits_ok in Hb1.
      destruct (warn_loop shape (Some (bm_bits b, map (fun _ => false) (bm_bits b))) t) as [[o f]|] eqn:E; [|discriminate].
      destruct (warn_loop_over shape N t _ _ o f Hb1 ltac:(rewrite map_length; exact Hb1) Hb2 E) as (acc' & over' & -> & L & P & Q).
      injection Hv as <- <-.
      assert (T : forall p, taken (b :: t) (b :: o) p = nth p over' false).
      { intros p. rewrite P, existsb_cons_iff, andb_negb_r. cbn [orb].
        assert (Z : nth p (map (fun _ : bool => false) (bm_bits b)) false = false).
        { clear. revert p. induction (bm_bits b) as [|x s IH]; intros [|p]; cbn; auto. }
        rewrite Z. reflexivity. }
      split.
      + assert (B : bany over' = existsb (taken (b :: t) (b :: o)) (seq 0 N)).
        { apply Bool.eq_iff_eq_true. rewrite bany_spec, existsb_exists. split.
          - intros (p & Hp). exists p. rewrite T. split; [|exact Hp]. apply in_seq. split; [lia|].
            destruct (Nat.lt_ge_cases p N) as [C|C]; [lia|]. rewrite nth_overflow in Hp by lia. discriminate.
          - intros (p & _ & Hp). exists p. rewrite <- T. exact Hp. }
        rewrite B. destruct (existsb _ _); [|reflexivity]. unfold bsum. rewrite (countb_seq_nth over' (taken (b :: t) (b :: o))); [rewrite L; reflexivity|].
        intros p _. apply T.
      + intros [|j] c c' p Hc Hc' H1 H2; cbn [nth_error] in Hc, Hc'; [congruence|].
        destruct (Q j c c' p Hc Hc' H1 H2) as [A|(i & d & A & B & C)]; [exists 0, b; split; [lia|auto]|].
        exists (S i), d. split; [lia|auto].
  Qed.
End Validate.
