(* Validation of masks when a Segmentation is constructed. *)
From Verif Require Import Prelude Counting CacheModel CacheSpec ClsModel ClsSpec FlowModel DetFlowModel SegModel SegSpec SegPixelProofs.
From Coq Require Import QArith String.
Local Open Scope nat_scope.
Local Open Scope list_scope.

Definition bits_ok (N : nat) (b : bitmask) : Prop := List.length (bm_bits b) = N.

Lemma bany_false a i : bany a = false -> nth i a false = false.
Proof. intros H. destruct (nth i a false) eqn:E; [|reflexivity]. assert (bany a = true) by (apply bany_spec; eauto). congruence. Qed.

Section Loop.
  Variables (shape : list Z) (N : nat).

  (* the loop from an accumulated mask on *)
  Lemma loop_spec bs : forall a out, List.length a = N -> Forall (bits_ok N) bs ->
    validate_loop shape (Some a) bs = Some out ->
    Forall2 same_frame bs out /\
    (forall j b b', nth_error bs j = Some b -> nth_error out j = Some b' ->
       forall p, px b' p = true -> px b p = true /\ nth p a false = false) /\
    (forall p, (nth p a false = true \/ exists b, In b out /\ px b p = true)
               <-> (nth p a false = true \/ exists b, In b bs /\ px b p = true)) /\
    (forall i j bi b' c', i < j -> nth_error bs i = Some bi ->
       (forall p, nth p a false = true -> px bi p = false) ->
       (forall k bk p, k < i -> nth_error bs k = Some bk -> px bk p = true -> px bi p = false) ->
       nth_error out i = Some b' -> nth_error out j = Some c' ->
       forall p, px b' p = true -> px c' p = true -> False).
  Proof.
    induction bs as [|b t IH]; intros a out Ha Hb H; cbn [validate_loop] in H.
    - injection H as <-. split; [constructor|]. split; [intros [|j] ? ? X; discriminate|]. split; [tauto|].
      intros i [|j] ? ? ? ? X; destruct i; discriminate.
    - pose proof (Forall_inv Hb) as Hb1. pose proof (Forall_inv_tail Hb) as Hb2. unfold bits_ok in Hb1.
      destruct (list_eq_dec Z.eq_dec shape (bm_shape b)); [|discriminate].
      destruct (bany (band a (bm_bits b))) eqn:Ov.
      + destruct (validate_loop shape (Some a) t) as [o|] eqn:E; [|discriminate]. injection H as <-.
        destruct (IH a o Ha Hb2 E) as (I1 & I2 & I3 & I4). clear IH.
        set (b0 := set_bits b (bclear (bm_bits b) (band a (bm_bits b)))).
        assert (PX : forall p, px b0 p = px b p && negb (nth p a false)).
        { intros p. unfold b0, px, set_bits. cbn [bm_bits]. rewrite nth_bclear by (rewrite band_length; lia).
          rewrite nth_band by lia. destruct (nth p (bm_bits b) false), (nth p a false); reflexivity. }
        split; [|split; [|split]].
        * constructor; [|exact I1]. unfold same_frame, b0, set_bits. cbn. rewrite bclear_length by (rewrite band_length; lia). auto.
        * intros [|j] x x' Hx Hx' p Hp; cbn [nth_error] in Hx, Hx'.
          -- injection Hx as <-. injection Hx' as <-. rewrite PX in Hp. apply andb_true_iff in Hp. destruct Hp as [H1 H2]. split; [exact H1|].
             destruct (nth p a false); [discriminate|reflexivity].
          -- eapply I2; eassumption.
        * intros p. specialize (I3 p). split.
          -- intros [H|(x & [<-|Hx] & Hp)]; [auto| |].
             ++ right. exists b. split; [left; reflexivity|]. rewrite PX in Hp. apply andb_true_iff in Hp. tauto.
             ++ destruct (proj1 I3) as [H|(y & Hy & Hyp)]; [right; eauto|auto|]. right. exists y. split; [right|]; auto.
          -- intros [H|(x & [<-|Hx] & Hp)]; [auto| |].
             ++ destruct (nth p a false) eqn:Ea; [auto|]. right. exists b0. split; [left; reflexivity|]. rewrite PX, Hp, Ea. reflexivity.
             ++ destruct (proj2 I3) as [H|(y & Hy & Hyp)]; [right; eauto|auto|]. right. exists y. split; [right|]; auto.
        * intros [|i] j bi b' c' Hij Hi Hfree Hearly Hb' Hc' p Hp Hq; destruct j as [|j]; try lia; cbn [nth_error] in *.
          -- injection Hi as <-. exfalso. apply bany_spec in Ov. destruct Ov as (q & Hov). rewrite nth_band in Hov by lia.
             apply andb_true_iff in Hov. destruct Hov as [O1 O2]. specialize (Hfree q O1). unfold px in Hfree. congruence.
          -- eapply (I4 i j bi b' c'); try eassumption; [lia|]. intros k bk p' Hk Hnk. apply (Hearly (S k) bk p'); [lia|exact Hnk].
      + destruct (validate_loop shape (Some (bor a (bm_bits b))) t) as [o|] eqn:E; [|discriminate]. injection H as <-.
        assert (Hl : List.length (bor a (bm_bits b)) = N) by (rewrite bor_length; lia).
        destruct (IH _ o Hl Hb2 E) as (I1 & I2 & I3 & I4). clear IH.
        assert (OR : forall p, nth p (bor a (bm_bits b)) false = nth p a false || px b p).
        { intros p. unfold px. rewrite nth_bor by lia. reflexivity. }
        assert (NO : forall p, nth p a false = true -> px b p = false).
        { intros p Hp. apply (bany_false _ p) in Ov. rewrite nth_band in Ov by lia. unfold px. rewrite Hp in Ov. exact Ov. }
        split; [|split; [|split]].
        * constructor; [|exact I1]. unfold same_frame. auto.
        * intros [|j] x x' Hx Hx' p Hp; cbn [nth_error] in Hx, Hx'.
          -- injection Hx as <-. injection Hx' as <-. split; [exact Hp|]. destruct (nth p a false) eqn:Ea; [|reflexivity]. rewrite (NO p Ea) in Hp. discriminate.
          -- destruct (I2 j x x' Hx Hx' p Hp) as [H1 H2]. split; [exact H1|]. rewrite OR in H2. apply orb_false_iff in H2. tauto.
        * intros p. specialize (I3 p). rewrite OR in I3. split.
          -- intros [H|(x & [<-|Hx] & Hp)]; [auto|right; exists b; split; [left|]; auto|].
             destruct (proj1 I3) as [H|(y & Hy & Hyp)]; [right; eauto| |right; exists y; split; [right|]; auto].
             apply orb_true_iff in H. destruct H as [H|H]; [auto|]. right. exists b. split; [left|]; auto.
          -- intros [H|(x & [<-|Hx] & Hp)]; [auto|right; exists b; split; [left|]; auto|].
             destruct (proj2 I3) as [H|(y & Hy & Hyp)]; [right; eauto| |right; exists y; split; [right|]; auto].
             apply orb_true_iff in H. destruct H as [H|H]; [auto|]. right. exists b. split; [left|]; auto.
        * intros [|i] j bi b' c' Hij Hi Hfree Hearly Hb' Hc' p Hp Hq; destruct j as [|j]; try lia; cbn [nth_error] in *.
          -- injection Hi as <-. injection Hb' as <-.
             assert (Hbj : exists bj, nth_error t j = Some bj).
             { apply Forall2_len in I1. destruct (nth_error t j) eqn:X; [eauto|]. apply nth_error_None in X.
               assert (j < List.length o) by (apply nth_error_Some; congruence). lia. }
             destruct Hbj as (bj & Hbj). destruct (I2 j bj c' Hbj Hc' p Hq) as [_ H2]. rewrite OR, Hp, orb_true_r in H2. discriminate.
          -- eapply (I4 i j bi b' c'); try eassumption; [lia| |].
             ++ intros q Hq'. rewrite OR in Hq'. apply orb_true_iff in Hq'. destruct Hq' as [Hq'|Hq']; [auto|].
                apply (Hearly 0 b q); [lia|reflexivity|exact Hq'].
             ++ intros k bk p' Hk Hnk. apply (Hearly (S k) bk p'); [lia|exact Hnk].
  Qed.

  Lemma loop_shapes bs : forall a, validate_loop shape a bs <> None <-> Forall (fun b => bm_shape b = shape) bs.
  Proof.
    induction bs as [|b t IH]; intros a; cbn [validate_loop]; [split; [constructor|discriminate]|].
    destruct (list_eq_dec Z.eq_dec shape (bm_shape b)) as [e|n].
    - assert (X : forall (o : option (list bitmask)) x, option_map (cons x) o <> None <-> o <> None).
      { intros [o|] x; cbn; split; congruence. }
      assert (Y : Forall (fun b => bm_shape b = shape) (b :: t) <-> Forall (fun b => bm_shape b = shape) t).
      { split; [intros H; inversion H; auto|constructor; auto]. }
      rewrite Y. destruct a as [a|]; [destruct (bany (band a (bm_bits b)))|]; rewrite X; apply IH.
    - split; [congruence|]. intros H. inversion H; subst. congruence.
  Qed.
  Lemma validate_none_some b t : validate_loop shape None (b :: t) =
    if list_eq_dec Z.eq_dec shape (bm_shape b) then option_map (cons b) (validate_loop shape (Some (bm_bits b)) t) else None.
  Proof. reflexivity. Qed.

  (* the whole list *)
  Theorem validate_spec bs out : Forall (bits_ok N) bs -> validate_bitmasks shape bs = Some out ->
    Forall2 same_frame bs out /\
    (forall j b b' p, nth_error bs j = Some b -> nth_error out j = Some b' -> px b' p = true -> px b p = true) /\
    (forall p, (exists b, In b out /\ px b p = true) <-> (exists b, In b bs /\ px b p = true)) /\
    (forall b, nth_error bs 0 = Some b -> nth_error out 0 = Some b) /\
    (forall i j bi b' c', i < j -> nth_error bs i = Some bi ->
       (forall k bk p, k < i -> nth_error bs k = Some bk -> px bk p = true -> px bi p = false) ->
       nth_error out i = Some b' -> nth_error out j = Some c' ->
       forall p, px b' p = true -> px c' p = true -> False).
  Proof.
    intros Hb H. unfold validate_bitmasks in H. destruct bs as [|b t].
    - injection H as <-. split; [constructor|]. split; [intros [|j]; discriminate|]. split; [tauto|]. split; [discriminate|].
      intros [|i] j bi b' c' _ X; discriminate.
    - rewrite validate_none_some in H. destruct (list_eq_dec Z.eq_dec shape (bm_shape b)) as [e|]; [|discriminate].
      destruct (validate_loop shape (Some (bm_bits b)) t) as [o|] eqn:E; [|discriminate]. injection H as <-.
      pose proof (Forall_inv Hb) as Hb1. pose proof (Forall_inv_tail Hb) as Hb2. unfold bits_ok in Hb1.
      destruct (loop_spec t (bm_bits b) o Hb1 Hb2 E) as (I1 & I2 & I3 & I4).
      split; [constructor; [unfold same_frame; auto|exact I1]|]. split; [|split; [|split]].
      + intros [|j] x x' p Hx Hx' Hp; cbn [nth_error] in *; [injection Hx as <-; injection Hx' as <-; exact Hp|].
        destruct (I2 j x x' Hx Hx' p Hp). assumption.
      + intros p. specialize (I3 p). fold (px b p) in I3. split.
        * intros (x & [<-|Hx] & Hp); [exists b; split; [left|]; auto|].
          destruct (proj1 I3) as [H|(y & Hy & Hyp)]; [right; eauto|exists b; split; [left|]; auto|exists y; split; [right|]; auto].
        * intros (x & [<-|Hx] & Hp); [exists b; split; [left|]; auto|].
          destruct (proj2 I3) as [H|(y & Hy & Hyp)]; [right; eauto|exists b; split; [left|]; auto|exists y; split; [right|]; auto].
      + intros x Hx. exact Hx.
      + intros [|i] j bi b' c' Hij Hi Hearly Hb' Hc' p Hp Hq; destruct j as [|j]; try lia; cbn [nth_error] in *.
        * injection Hi as <-. injection Hb' as <-.
          assert (Hbj : exists bj, nth_error t j = Some bj).
          { apply Forall2_len in I1. destruct (nth_error t j) eqn:X; [eauto|]. apply nth_error_None in X.
            assert (j < List.length o) by (apply nth_error_Some; congruence). lia. }
          destruct Hbj as (bj & Hbj). destruct (I2 j bj c' Hbj Hc' p Hq) as [_ H2]. fold (px b p) in H2. congruence.
        * eapply (I4 i j bi b' c'); try eassumption; [lia| |].
          -- intros q Hq'. apply (Hearly 0 b q); [lia|reflexivity|exact Hq'].
          -- intros k bk p' Hk Hnk. apply (Hearly (S k) bk p'); [lia|exact Hnk].
  Qed.

  Lemma loop_unchanged bs : forall a, List.length a = N -> Forall (bits_ok N) bs -> Forall (fun b => bm_shape b = shape) bs ->
    (forall b p, In b bs -> nth p a false = true -> px b p = false) -> disjoint_masks bs ->
    validate_loop shape (Some a) bs = Some bs.
  Proof.
    induction bs as [|b t IH]; intros a Ha Hb Hs Hfree Hdis; [reflexivity|]. cbn [validate_loop].
    pose proof (Forall_inv Hb) as Hb1. pose proof (Forall_inv_tail Hb) as Hb2. pose proof (Forall_inv Hs) as Hs1. pose proof (Forall_inv_tail Hs) as Hs2. unfold bits_ok in Hb1.
    destruct (list_eq_dec Z.eq_dec shape (bm_shape b)) as [_|n]; [|congruence].
    destruct (bany (band a (bm_bits b))) eqn:Ov.
    - exfalso. apply bany_spec in Ov. destruct Ov as (q & Hov). rewrite nth_band in Hov by lia. apply andb_true_iff in Hov. destruct Hov as [O1 O2].
      specialize (Hfree b q (or_introl eq_refl) O1). unfold px in Hfree. congruence.
    - apply disjoint_cons in Hdis. destruct Hdis as [D1 D2]. rewrite IH; [reflexivity| | | | |].
      + rewrite bor_length; lia.
      + exact Hb2.
      + exact Hs2.
      + intros b' p Hb' Hp. rewrite nth_bor in Hp by lia. apply orb_true_iff in Hp. destruct Hp as [Hp|Hp].
        * apply Hfree; [right|]; assumption.
        * destruct (px b' p) eqn:E; [|reflexivity]. exfalso. exact (D2 b' p Hb' Hp E).
      + exact D1.
  Qed.
  Theorem validate_unchanged bs : Forall (bits_ok N) bs -> Forall (fun b => bm_shape b = shape) bs -> disjoint_masks bs ->
    validate_bitmasks shape bs = Some bs.
  Proof.
    intros Hb Hs Hdis. unfold validate_bitmasks. destruct bs as [|b t]; [reflexivity|]. rewrite validate_none_some.
    pose proof (Forall_inv Hb) as Hb1. pose proof (Forall_inv_tail Hb) as Hb2. pose proof (Forall_inv Hs) as Hs1. pose proof (Forall_inv_tail Hs) as Hs2. unfold bits_ok in Hb1.
    destruct (list_eq_dec Z.eq_dec shape (bm_shape b)) as [_|n]; [|congruence].
    apply disjoint_cons in Hdis. destruct Hdis as [D1 D2]. rewrite loop_unchanged; [reflexivity| | | | |]; auto.
    intros b' p Hb' Hp. destruct (px b' p) eqn:E; [|reflexivity]. exfalso. exact (D2 b' p Hb' Hp E).
  Qed.
End Loop.

(* ------------------------------------------------------------------ construction *)
Lemma array_bits (shape : list Z) b : array_ok b -> bm_shape b = shape -> bits_ok (Z.to_nat (fold_right Z.mul 1%Z shape)) b.
Proof. intros [_ H] <-. unfold bits_ok. lia. Qed.

Theorem make_spec uid gts pds shape m s :
  Forall array_ok gts -> Forall array_ok pds -> make_segmentation uid gts pds shape m = Some s ->
  exists x y, shape = [x; y] /\ (0 < x)%Z /\ (0 < y)%Z /\ sg_uid s = uid /\ sg_size s = (x * y)%Z /\ sg_meta s = m /\ sg_shape s = shape
    /\ validate_bitmasks shape gts = Some (sg_gts s) /\ validate_bitmasks shape pds = Some (sg_pds s)
    /\ Forall (bits_ok (Z.to_nat (x * y))) gts /\ Forall (bits_ok (Z.to_nat (x * y))) pds.
Proof.
  intros Hg Hp H. unfold make_segmentation in H. destruct shape as [|x [|y [|]]]; try discriminate.
  destruct ((x <=? 0) || (y <=? 0))%Z%bool eqn:E; [discriminate|]. apply orb_false_iff in E. destruct E as [E1 E2].
  destruct (validate_bitmasks [x; y] gts) as [g'|] eqn:Eg; [|discriminate].
  destruct (validate_bitmasks [x; y] pds) as [p'|] eqn:Ep; [|discriminate]. injection H as <-.
  exists x, y. cbn. repeat (split; [first [reflexivity|lia|assumption]|]).
  assert (A : forall bs, Forall array_ok bs -> validate_bitmasks [x; y] bs <> None -> Forall (bits_ok (Z.to_nat (x * y))) bs).
  { intros bs Hb Hv. apply loop_shapes in Hv. rewrite Forall_forall in *. intros b Hin.
    pose proof (array_bits [x; y] b (Hb b Hin) (Hv b Hin)) as X. cbn [fold_right] in X. rewrite Z.mul_1_r in X. exact X. }
  split; apply A; auto; congruence.
Qed.

(* construction from disjoint masks with distinct labels gives a clean datum *)
Theorem make_clean uid gts pds shape m x y :
  Forall array_ok gts -> Forall array_ok pds -> shape = [x; y] -> (0 < x)%Z -> (0 < y)%Z ->
  Forall (fun b => bm_shape b = shape) gts -> Forall (fun b => bm_shape b = shape) pds ->
  disjoint_masks gts -> disjoint_masks pds -> distinct_labels gts -> distinct_labels pds ->
  make_segmentation uid gts pds shape m = Some (MkSeg uid gts pds shape (x * y) m)
  /\ clean (MkSeg uid gts pds shape (x * y) m).
Proof.
  intros Hg Hp -> Hx Hy Sg Sp Dg Dp Lg Lp.
  assert (A : forall bs, Forall array_ok bs -> Forall (fun b => bm_shape b = [x; y]) bs -> Forall (bits_ok (Z.to_nat (x * y))) bs).
  { intros bs Hb Hv. rewrite Forall_forall in *. intros b Hin.
    pose proof (array_bits [x; y] b (Hb b Hin) (Hv b Hin)) as X. cbn [fold_right] in X. rewrite Z.mul_1_r in X. exact X. }
  pose proof (A gts Hg Sg) as Bg. pose proof (A pds Hp Sp) as Bp. split.
  - unfold make_segmentation. destruct ((x <=? 0) || (y <=? 0))%Z%bool eqn:E; [lia|].
    rewrite (validate_unchanged [x; y] _ gts Bg Sg Dg), (validate_unchanged [x; y] _ pds Bp Sp Dp). reflexivity.
  - split; [|cbn; auto]. split; [cbn; lia|]. cbn [sg_gts sg_pds sg_size]. rewrite Forall_forall in Bg, Bp. unfold bits_ok in Bg, Bp.
    intros b [Hb|Hb]; [rewrite (Bg b Hb)|rewrite (Bp b Hb)]; lia.
Qed.

(* ------------------------------------------------------------------ shared arrays *)
Lemma hset_length h r bits : List.length (hset h r bits) = List.length h.
Proof.
  unfold hset. rewrite app_length. pose proof (firstn_skipn r h) as E. apply (f_equal (@List.length harray)) in E. rewrite app_length in E.
  destruct (skipn r h); cbn in *; lia.
Qed.
Lemma hset_same h r a bits : nth_error h r = Some a -> nth_error (hset h r bits) r = Some (MkArr (ar_shape a) bits).
Proof. revert r. induction h as [|x h IH]; intros [|r] H; try discriminate; cbn in *; [injection H as ->; reflexivity|]. apply IH. exact H. Qed.
Lemma hset_other h r q bits : q <> r -> nth_error (hset h r bits) q = nth_error h q.
Proof. revert r q. induction h as [|x h IH]; intros [|r] [|q] H; try congruence; try reflexivity. cbn. apply IH. congruence. Qed.

Lemma hvalidate_frame shape bs : forall acc h q, ~ In q (map hm_ref bs) -> nth_error (fst (hvalidate shape acc bs h)) q = nth_error h q.
Proof.
  induction bs as [|b t IH]; intros acc h q Hq; [reflexivity|]. cbn [hvalidate map In] in *.
  destruct (nth_error h (hm_ref b)) as [a|]; [|reflexivity]. destruct (list_eq_dec _ _ _); [|reflexivity].
  destruct acc as [m|]; [destruct (bany _)|]; rewrite IH by tauto; try reflexivity.
  apply hset_other. intros C. subst. tauto.
Qed.
Lemma hread1_other h h' b : nth_error h' (hm_ref b) = nth_error h (hm_ref b) -> hread1 h' b = hread1 h b.
Proof. intros E. unfold hread1. rewrite E. reflexivity. Qed.
Lemma hread_other h h' bs out : (forall b, In b bs -> nth_error h' (hm_ref b) = nth_error h (hm_ref b)) -> hread h bs out -> hread h' bs out.
Proof.
  intros E H. induction H as [|b o bs out Hb Hr IH]; constructor.
  - rewrite (hread1_other h h' b); [exact Hb|]. apply E. left. reflexivity.
  - apply IH. intros b' Hb'. apply E. right. exact Hb'.
Qed.

(* without sharing, validation on arrays is validation on values *)
Lemma hvalidate_refines shape bs : forall acc h ms, NoDup (map hm_ref bs) -> hread h bs ms ->
  match validate_loop shape acc ms with
  | Some out => snd (hvalidate shape acc bs h) = true /\ hread (fst (hvalidate shape acc bs h)) bs out
  | None => snd (hvalidate shape acc bs h) = false
  end.
Proof.
  induction bs as [|b t IH]; intros acc h ms Hn Hr; inversion Hr as [|? m ? ms' Hm Hr']; subst; [split; [reflexivity|constructor]|].
  cbn [map] in Hn. inversion Hn as [|? ? Hn1 Hn2]; subst. cbn [validate_loop hvalidate].
  unfold hread1 in Hm. destruct (nth_error h (hm_ref b)) as [a|] eqn:Ea; [|discriminate]. cbn in Hm. injection Hm as <-. cbn [bm_shape bm_bits].
  destruct (list_eq_dec Z.eq_dec shape (ar_shape a)); [|reflexivity].
  assert (G : forall acc' h1 x, (forall q, q <> hm_ref b -> nth_error h1 q = nth_error h q) -> hread1 h1 b = Some x ->
     match option_map (cons x) (validate_loop shape acc' ms') with
     | Some out => snd (hvalidate shape acc' t h1) = true /\ hread (fst (hvalidate shape acc' t h1)) (b :: t) out
     | None => snd (hvalidate shape acc' t h1) = false
     end).
  { intros acc' h1 x Hq Hx. assert (Hr1 : hread h1 t ms').
    { eapply hread_other; [|exact Hr']. intros b' Hb'. apply Hq. intros C. apply Hn1. rewrite <- C. apply in_map. exact Hb'. }
    specialize (IH acc' h1 ms' Hn2 Hr1). destruct (validate_loop shape acc' ms') as [out|]; [|exact IH]. cbn. destruct IH as [I1 I2].
    split; [exact I1|]. constructor; [|exact I2]. rewrite <- Hx. apply hread1_other. apply hvalidate_frame. exact Hn1. }
  assert (R : hread1 h b = Some (MkBM (hm_label b) (ar_shape a) (ar_bits a) (hm_meta b))) by (unfold hread1; rewrite Ea; reflexivity).
  destruct acc as [m|]; [destruct (bany (band m (ar_bits a)))|]; apply G; auto.
  - intros q Hq. apply hset_other. exact Hq.
  - unfold hread1. rewrite (hset_same h _ a _ Ea). reflexivity.
Qed.

Lemma NoDup_parts {A} (l1 l2 : list A) : NoDup (l1 ++ l2) -> NoDup l1 /\ NoDup l2.
Proof.
  induction l1 as [|x l IH]; cbn; intros H; [split; [constructor|exact H]|]. inversion H as [|? ? H1 H2]; subst.
  destruct (IH H2) as [I1 I2]. split; [constructor; [|exact I1]|exact I2]. intros C. apply H1. apply in_app_iff. auto.
Qed.
Theorem hmake_refines gts pds shape h gs ps uid m :
  NoDup (map hm_ref (gts ++ pds)) -> hread h gts gs -> hread h pds ps ->
  match make_segmentation uid gs ps shape m with
  | Some s => snd (hmake gts pds shape h) = true
      /\ hread (fst (hmake gts pds shape h)) gts (sg_gts s) /\ hread (fst (hmake gts pds shape h)) pds (sg_pds s)
  | None => snd (hmake gts pds shape h) = false
  end.
Proof.
  intros Hn Hg Hp. rewrite map_app in Hn. unfold make_segmentation, hmake. destruct shape as [|x [|y [|]]]; try reflexivity.
  destruct ((x <=? 0) || (y <=? 0))%Z%bool; [reflexivity|].
  assert (N1 : NoDup (map hm_ref gts)) by (apply (NoDup_parts _ _ Hn)).
  assert (N2 : NoDup (map hm_ref pds)) by (apply (NoDup_parts _ _ Hn)).
  assert (D : forall b, In b pds -> ~ In (hm_ref b) (map hm_ref gts)).
  { intros b Hb C. clear -Hn Hb C. induction (map hm_ref gts) as [|q l IH]; [destruct C|]. cbn in Hn. inversion Hn; subst.
    destruct C as [->|C]; [apply H1; apply in_app_iff; right; apply in_map; exact Hb|auto]. }
  pose proof (hvalidate_refines [x; y] gts None h gs N1 Hg) as R1. unfold validate_bitmasks.
  destruct (validate_loop [x; y] None gs) as [g'|].
  - destruct R1 as [E1 R1]. destruct (hvalidate [x; y] None gts h) as [h1 ok1] eqn:H1. cbn in E1, R1. subst ok1.
    assert (Hp1 : hread h1 pds ps).
    { eapply hread_other; [|exact Hp]. intros b Hb. replace h1 with (fst (hvalidate [x; y] None gts h)) by (rewrite H1; reflexivity).
      apply hvalidate_frame. apply D. exact Hb. }
    pose proof (hvalidate_refines [x; y] pds None h1 ps N2 Hp1) as R2.
    destruct (validate_loop [x; y] None ps) as [p'|]; [|exact R2]. cbn [sg_gts sg_pds]. destruct R2 as [E2 R2]. split; [exact E2|]. split; [|exact R2].
    eapply hread_other; [|exact R1]. intros b Hb. apply hvalidate_frame. intros C. apply in_map_iff in C. destruct C as (b' & Eb & Hb').
    apply (D b' Hb'). rewrite Eb. apply in_map. exact Hb.
  - destruct (hvalidate [x; y] None gts h) as [h1 ok1] eqn:H1. cbn in R1. subst ok1. reflexivity.
Qed.

(* disjoint masks: the arrays are left alone, shared or not *)
Lemma hvalidate_unchanged_any shape bs h ms : hread h bs ms -> Forall array_ok ms -> disjoint_masks ms ->
  fst (hvalidate shape None bs h) = h.
Proof.
  intros Hr Ha Hdis. 
  (* up to the first mask of another shape all masks have the same number of pixels *)
  assert (G : forall bs acc ms, hread h bs ms -> Forall array_ok ms -> disjoint_masks ms ->
    (forall a, acc = Some a -> Z.of_nat (List.length a) = fold_right Z.mul 1%Z shape) ->
    (forall a b p, acc = Some a -> In b ms -> nth p a false = true -> px b p = false) ->
    fst (hvalidate shape acc bs h) = h).
  { clear. induction bs as [|b t IH]; intros acc ms Hr Ha Hdis Hl Hfree; inversion Hr as [|? m ? ms' Hm Hr']; subst; [reflexivity|].
    cbn [hvalidate]. unfold hread1 in Hm. destruct (nth_error h (hm_ref b)) as [a|]; [|reflexivity]. cbn in Hm. injection Hm as <-.
    destruct (list_eq_dec Z.eq_dec shape (ar_shape a)) as [Es|]; [|reflexivity]. inversion Ha as [|? ? [_ Ha1] Ha2]; subst. cbn [bm_bits bm_shape] in Ha1.
    apply disjoint_cons in Hdis. destruct Hdis as [D1 D2].
    destruct acc as [m|].
    - specialize (Hl m eq_refl). destruct (bany (band m (ar_bits a))) eqn:Ov.
      + exfalso. apply bany_spec in Ov. destruct Ov as (q & Hov). rewrite nth_band in Hov by lia. apply andb_true_iff in Hov. destruct Hov as [O1 O2].
        specialize (Hfree m _ q eq_refl (or_introl eq_refl) O1). unfold px in Hfree. cbn [bm_bits] in Hfree. congruence.
      + apply (IH _ ms' Hr' Ha2 D1); [intros a0 E; injection E as <-; rewrite bor_length; lia|].
        intros a0 b' p E Hb' Hp. injection E as <-. rewrite nth_bor in Hp by lia. apply orb_true_iff in Hp. destruct Hp as [Hp|Hp].
        * apply (Hfree m b' p eq_refl); [right|]; assumption.
        * destruct (px b' p) eqn:E; [|reflexivity]. exfalso. exact (D2 b' p Hb' Hp E).
    - apply (IH _ ms' Hr' Ha2 D1); [intros a0 E; injection E as <-; lia|].
      intros a0 b' p E Hb' Hp. injection E as <-. destruct (px b' p) eqn:E; [|reflexivity]. exfalso. exact (D2 b' p Hb' Hp E). }
  apply (G bs None ms Hr Ha Hdis); discriminate.
Qed.
Theorem hmake_unchanged gts pds shape h gs ps :
  hread h gts gs -> hread h pds ps -> Forall array_ok gs -> Forall array_ok ps -> disjoint_masks gs -> disjoint_masks ps ->
  fst (hmake gts pds shape h) = h.
Proof.
  intros Hg Hp Ag Ap Dg Dp. unfold hmake. destruct shape as [|x [|y [|]]]; try reflexivity.
  destruct ((x <=? 0) || (y <=? 0))%Z%bool; [reflexivity|].
  pose proof (hvalidate_unchanged_any [x; y] gts h gs Hg Ag Dg) as E. destruct (hvalidate [x; y] None gts h) as [h1 [|]]; cbn in E; subst h1; [|reflexivity].
  apply (hvalidate_unchanged_any [x; y] pds h ps Hp Ap Dp).
Qed.
(* arrays of no mask of the datum are never touched *)
Theorem hmake_frame gts pds shape h q : ~ In q (map hm_ref (gts ++ pds)) -> nth_error (fst (hmake gts pds shape h)) q = nth_error h q.
Proof.
  intros Hq. rewrite map_app, in_app_iff in Hq. unfold hmake. destruct shape as [|x [|y [|]]]; try reflexivity.
  destruct ((x <=? 0) || (y <=? 0))%Z%bool; [reflexivity|].
  pose proof (hvalidate_frame [x; y] gts None h q) as E. destruct (hvalidate [x; y] None gts h) as [h1 [|]]; cbn in E; [|apply E; tauto].
  rewrite hvalidate_frame by tauto. apply E. tauto.
Qed.
