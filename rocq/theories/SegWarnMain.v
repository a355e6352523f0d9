(* C128: the warnings given when a Segmentation is constructed. *)
From Verif Require Import Prelude Counting CacheModel CacheSpec ClsModel ClsSpec FlowModel DetFlowModel SegModel SegSpec SegPixelProofs SegValidProofs
  SegWarnModel SegWarnSpec SegWarnProofs.
From Coq Require Import QArith String.
Local Notation length := List.length (only parsing).
Local Open Scope nat_scope.
Local Open Scope list_scope.

Lemma vw_some uid key shape bs : option_map fst (validate_warn uid key shape bs) = validate_bitmasks shape bs.
Proof.
  unfold validate_warn, validate_bitmasks. change (@None (list bool)) with (option_map (@fst (list bool) (list bool)) None).
  rewrite <- warn_loop_masks. destruct (warn_loop shape None bs) as [[o [[a v]|]]|]; reflexivity.
Qed.
Theorem construct_make uid gts pds shape m : fst (construct uid gts pds shape m) = make_segmentation uid gts pds shape m.
Proof.
  unfold construct, make_segmentation. destruct shape as [|h [|w [|? ?]]]; try reflexivity.
  destruct (_ || _)%bool; [reflexivity|]. rewrite <- (vw_some uid "ground truth" [h; w] gts), <- (vw_some uid "prediction" [h; w] pds).
  destruct (validate_warn uid "ground truth" [h; w] gts) as [[g wg]|]; [|reflexivity]. cbn [option_map fst].
  destruct (validate_warn uid "prediction" [h; w] pds) as [[p wp]|]; reflexivity.
Qed.

Definition keyed (key : string) (ws : list warning) : Prop := Forall (fun x => w_key x = key) ws.
Lemma vw_keyed uid key shape bs out ws : validate_warn uid key shape bs = Some (out, ws) -> keyed key ws.
Proof.
  unfold validate_warn. destruct (warn_loop shape None bs) as [[o [[a v]|]]|]; intros H; try discriminate; injection H as <- <-; [|constructor].
  destruct (bany v); repeat constructor.
Qed.
Lemma about_same key ws : keyed key ws -> about key ws = ws.
Proof. induction 1 as [|x t H _ IH]; [reflexivity|]. unfold about in *. cbn [filter]. rewrite H, String.eqb_refl, IH. reflexivity. Qed.
Lemma about_other key k ws : keyed key ws -> k <> key -> about k ws = [].
Proof.
  intros H Hk. induction H as [|x t H _ IH]; [reflexivity|]. unfold about in *. cbn [filter]. rewrite H, IH.
  destruct (String.eqb_spec key k); congruence.
Qed.

Lemma construct_parts uid gts pds shape m s ws : Forall array_ok gts -> Forall array_ok pds ->
  construct uid gts pds shape m = (Some s, ws) ->
  exists wg wp, ws = wg ++ wp /\ (0 < sg_size s)%Z /\ sg_uid s = uid /\ Forall (bits_ok (Z.to_nat (sg_size s))) gts /\ Forall (bits_ok (Z.to_nat (sg_size s))) pds /\
    validate_warn uid "ground truth" shape gts = Some (sg_gts s, wg) /\ validate_warn uid "prediction" shape pds = Some (sg_pds s, wp).
Proof.
  intros Hg Hp H. pose proof (construct_make uid gts pds shape m) as E. rewrite H in E. cbn [fst] in E. symmetry in E.
  destruct (make_spec uid gts pds shape m s Hg Hp E) as (x & y & Hs & Hx & Hy & Hu & Hz & _ & _ & _ & _ & Bg & Bp).
  rewrite <- Hz in Bg, Bp. unfold construct in H. rewrite Hs in H |- *. destruct (_ || _)%bool; [discriminate|].
  destruct (validate_warn uid "ground truth" [x; y] gts) as [[g wg]|]; [|discriminate].
  destruct (validate_warn uid "prediction" [x; y] pds) as [[p wp]|]; [|discriminate]. injection H as <- <-. cbn [sg_gts sg_pds].
  exists wg, wp. cbn [sg_size sg_uid] in *. repeat split; auto. nia.
Qed.

Theorem construct_about uid gts pds shape m : let ws := snd (construct uid gts pds shape m) in
  ws = about "ground truth" ws ++ about "prediction" ws.
Proof.
  cbn zeta. unfold construct. destruct shape as [|h [|w [|? ?]]]; try reflexivity.
  destruct (_ || _)%bool; [reflexivity|].
  destruct (validate_warn uid "ground truth" [h; w] gts) as [[g wg]|] eqn:Vg; [|reflexivity].
  pose proof (vw_keyed _ _ _ _ _ _ Vg) as Kg.
  destruct (validate_warn uid "prediction" [h; w] pds) as [[p wp]|] eqn:Vp; cbn [snd].
  - pose proof (vw_keyed _ _ _ _ _ _ Vp) as Kp. unfold about. rewrite !filter_app.
    fold (about "ground truth" wg). fold (about "ground truth" wp). fold (about "prediction" wg). fold (about "prediction" wp).
    rewrite (about_same _ _ Kg), (about_same _ _ Kp), (about_other _ "ground truth" _ Kp), (about_other _ "prediction" _ Kg) by discriminate.
    rewrite app_nil_r. reflexivity.
  - rewrite (about_same _ _ Kg), (about_other _ "prediction" _ Kg) by discriminate. rewrite app_nil_r. reflexivity.
Qed.

Section Construct.
  Variables (uid : string) (gts pds : list bitmask) (shape : list Z) (m : meta) (s : segmentation) (ws : list warning).
  Hypothesis Hg : Forall array_ok gts.
  Hypothesis Hp : Forall array_ok pds.
  Hypothesis H : construct uid gts pds shape m = (Some s, ws).
  Variables (key : string) (inp out : list bitmask).
  Hypothesis Hio : (key = "ground truth"%string /\ inp = gts /\ out = sg_gts s) \/ (key = "prediction"%string /\ inp = pds /\ out = sg_pds s).
  Let N := Z.to_nat (sg_size s).

  Lemma c_valid : Forall (bits_ok N) inp /\ validate_warn uid key shape inp = Some (out, about key ws) /\ validate_bitmasks shape inp = Some out.
  Proof.
    destruct (construct_parts uid gts pds shape m s ws Hg Hp H) as (wg & wp & -> & _ & _ & Bg & Bp & Vg & Vp).
    assert (V : Forall (bits_ok N) inp /\ validate_warn uid key shape inp = Some (out, about key (wg ++ wp))).
    { pose proof (vw_keyed _ _ _ _ _ _ Vg) as Kg. pose proof (vw_keyed _ _ _ _ _ _ Vp) as Kp.
      unfold about. rewrite filter_app. fold (about key wg). fold (about key wp).
      destruct Hio as [(-> & -> & ->)|(-> & -> & ->)].
      - rewrite (about_same _ _ Kg), (about_other _ _ _ Kp), app_nil_r by discriminate. auto.
      - rewrite (about_same _ _ Kp), (about_other _ _ _ Kg) by discriminate. auto. }
    destruct V as [V1 V2]. split; [exact V1|]. split; [exact V2|]. exact (vw_masks uid key shape inp out _ V2).
  Qed.

  Theorem c_count : let n := countb (taken inp out) (pixels s) in
    about key ws = if 0 <? n then [MkWarn key uid (Z.of_nat n) (sg_size s)] else [].
  Proof.
    cbn zeta. destruct c_valid as (B & V & _). destruct (vw_over uid key shape N inp out _ B V) as (_ & E & _). rewrite E.
    unfold pixels. fold N.
    assert (Hz : Z.of_nat N = sg_size s).
    { destruct (construct_parts uid gts pds shape m s ws Hg Hp H) as (_ & _ & _ & Hz & _). unfold N. lia. }
    rewrite Hz. assert (C : existsb (taken inp out) (seq 0 N) = (0 <? countb (taken inp out) (seq 0 N))).
    { clear. induction (seq 0 N) as [|x t IH]; [reflexivity|]. cbn [existsb]. unfold countb in *. cbn [filter].
      destruct (taken inp out x); [reflexivity|]. exact IH. }
    rewrite C. reflexivity.
  Qed.

  Theorem c_shared p : taken inp out p = true -> in_two inp p.
  Proof.
    intros T. destruct c_valid as (B & V & _). destruct (vw_over uid key shape N inp out _ B V) as (_ & _ & Q).
    apply taken_spec in T. destruct T as (j & b & b' & A & A' & C & D). destruct (Q j b b' p A A' C D) as (i & c & L & E & F).
    exists i, j, c, b. auto.
  Qed.

  Lemma c_out j b : nth_error inp j = Some b -> exists b', nth_error out j = Some b' /\ same_frame b b'.
  Proof.
    destruct c_valid as (B & _ & V). destruct (validate_spec shape N inp out B V) as (F & _). clear - F.
    revert j. induction F as [|x y l l' R _ IH]; intros [|j] E; try discriminate; cbn in *; [injection E as <-; eauto|eauto].
  Qed.

  Theorem c_kept i j a b p : i < j -> nth_error inp i = Some a -> nth_error inp j = Some b -> px a p = true -> px b p = true ->
    (forall k c q, k < i -> nth_error inp k = Some c -> px c q = true -> px a q = false) -> taken inp out p = true.
  Proof.
    intros Hij Ha Hb Pa Pb Hfree. destruct c_valid as (B & V & V'). destruct (vw_over uid key shape N inp out _ B V) as (_ & _ & Q).
    destruct (validate_spec shape N inp out B V') as (_ & _ & _ & _ & D).
    destruct (c_out i a Ha) as (a' & Ha' & _). destruct (c_out j b Hb) as (b' & Hb' & _).
    apply taken_spec. exists j, b, b'. repeat split; auto.
    destruct (px b' p) eqn:Eb; [|reflexivity]. exfalso.
    destruct (px a' p) eqn:Ea; [exact (D i j a a' b' Hij Ha Hfree Ha' Hb' p Ea Eb)|].
    destruct (Q i a a' p Ha Ha' Pa Ea) as (k & c & Hk & Hc & Pc). rewrite (Hfree k c p Hk Hc Pc) in Pa. discriminate.
  Qed.

  Lemma c_unchanged : (forall p, taken inp out p = false) -> out = inp.
  Proof.
    intros T. destruct c_valid as (B & _ & V). destruct (validate_spec shape N inp out B V) as (F & M & _).
    assert (G : forall j b b', nth_error inp j = Some b -> nth_error out j = Some b' -> forall p, px b p = px b' p).
    { intros j b b' A A' p. specialize (M j b b' p A A'). destruct (px b p) eqn:E, (px b' p) eqn:E'; auto.
      specialize (T p). assert (X : taken inp out p = true) by (apply taken_spec; exists j, b, b'; auto). congruence. }
    clear - F G. induction F as [|x y l l' R _ IH]; [reflexivity|]. f_equal.
    - specialize (G 0 x y eq_refl eq_refl). destruct x as [l1 s1 b1 m1], y as [l2 s2 b2 m2]. unfold same_frame, px in *. cbn in *.
      destruct R as (-> & -> & -> & L).
      assert (EB : b1 = b2) by (apply (nth_ext b1 b2 false false); [lia|intros n _; apply G]).
      rewrite EB. reflexivity.
    - apply IH. intros j b b' A A'. apply (G (S j) b b'); assumption.
  Qed.

  Theorem c_silent : (about key ws = [] <-> disjoint_masks inp) /\ (about key ws = [] <-> out = inp).
  Proof.
    destruct c_valid as (B & V & V').
    assert (A1 : disjoint_masks inp -> out = inp).
    { intros D. assert (S : Forall (fun b => bm_shape b = shape) inp).
      { apply (loop_shapes shape inp None). unfold validate_bitmasks in V'. congruence. }
      pose proof (validate_unchanged shape N inp B S D). congruence. }
    assert (A2 : out = inp -> about key ws = []).
    { intros E. pose proof c_count as C. cbn zeta in C. rewrite C, E.
      assert (Z : countb (taken inp inp) (pixels s) = 0).
      { unfold countb. destruct (filter (taken inp inp) (pixels s)) as [|p t] eqn:Ef; [reflexivity|].
        assert (X : In p (filter (taken inp inp) (pixels s))) by (rewrite Ef; left; reflexivity). apply filter_In in X. destruct X as [_ X].
        apply taken_spec in X. destruct X as (j & b & b' & X1 & X2 & X3 & X4). congruence. }
      rewrite Z. reflexivity. }
    assert (A3 : about key ws = [] -> forall p, taken inp out p = false).
    { intros E p. destruct (taken inp out p) eqn:T; [|reflexivity]. exfalso. pose proof c_count as C. cbn zeta in C. rewrite E in C.
      destruct (vw_over uid key shape N inp out _ B V) as (L & _ & _). specialize (L p T).
      assert (0 < countb (taken inp out) (pixels s)).
      { unfold countb. assert (X : In p (filter (taken inp out) (pixels s))) by (apply filter_In; split; [apply in_seq; unfold N in L; lia|exact T]).
        destruct (filter _ _); [destruct X|cbn; lia]. }
      destruct (Nat.ltb_spec 0 (countb (taken inp out) (pixels s))); [discriminate|lia]. }
    assert (A4 : about key ws = [] -> disjoint_masks inp).
    { intros E. pose proof (A3 E) as T.
      assert (W : forall i j a b p, i < j -> nth_error inp i = Some a -> nth_error inp j = Some b -> px a p = true -> px b p = true -> False).
      { intros i. induction i as [i IH] using (well_founded_induction Nat.lt_wf_0). intros j a b p Hij Ha Hb Pa Pb.
        assert (X : taken inp out p = true).
        { apply (c_kept i j a b p Hij Ha Hb Pa Pb). intros k c q Hk Hc Pc. destruct (px a q) eqn:Pq; [|reflexivity]. exfalso. exact (IH k Hk i c a q Hk Hc Ha Pc Pq). }
        rewrite T in X. discriminate. }
      intros i j b b' p Hi Hj Hne P1 P2. destruct (Nat.lt_trichotomy i j) as [L|[L|L]]; [|congruence|]; [exact (W i j b b' p L Hi Hj P1 P2)|exact (W j i b' b p L Hj Hi P2 P1)]. }
    split; split; auto.
  Qed.
End Construct.
