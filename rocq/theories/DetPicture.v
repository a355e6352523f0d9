(* A table that shows some images of a data set: the greedy choice of the code is the
   matching of every image. *)
From Verif Require Import Prelude Counting CacheModel CacheSpec CacheProofs SortProofs ClsModel ClsLabelProofs DetModel DetExModel DetSpec
  DetMatchProofs DetRankProofs DetCountProofs DetMain DetConfProofs DetMatchingProofs DetFilterSpec DetFilterProofs DetFilterEntries DetTurnSpec DetTurnProofs.
From Coq Require Import Lia.
From Coq Require String.
Local Open Scope nat_scope.
Local Open Scope list_scope.

(* the order of the rows of a table *)
Definition row_key (r : drow) : list Z := [(- d_score r)%Z; (- d_iou r)%Z; d_gt r; d_pd r].
Definition row_le (a b : drow) : Prop := lex_leb (row_key a) (row_key b) = true.
Definition is_pair (r : drow) : bool := (0 <=? d_gt r)%Z && (0 <=? d_pd r)%Z.
Definition pairs_of (i : nat) (T : list drow) : list drow := filter (fun r => is_pair r && (d_datum r =? Z.of_nat i)%Z) T.

Lemma lex4 a b c d a' b' c' d' : lex_leb [a; b; c; d] [a'; b'; c'; d'] = true <->
  (a < a' \/ (a = a' /\ (b < b' \/ (b = b' /\ (c < c' \/ (c = c' /\ d <= d'))))))%Z.
Proof.
  cbn. destruct (Z.ltb_spec a a'), (Z.eqb_spec a a'); try lia; cbn;
  destruct (Z.ltb_spec b b'), (Z.eqb_spec b b'); try lia; cbn;
  destruct (Z.ltb_spec c c'), (Z.eqb_spec c c'); try lia; cbn;
  destruct (Z.ltb_spec d d'), (Z.eqb_spec d d'); try lia; cbn; split; try lia; try discriminate.
Qed.
Lemma row_le_iff a b : row_le a b <->
  (d_score b < d_score a \/ (d_score b = d_score a /\ (d_iou b < d_iou a \/ (d_iou b = d_iou a /\ (d_gt a < d_gt b \/ (d_gt a = d_gt b /\ d_pd a <= d_pd b))))))%Z.
Proof. unfold row_le, row_key. rewrite lex4. lia. Qed.
Lemma row_le_trans a b c : row_le a b -> row_le b c -> row_le a c.
Proof. apply lex_leb_trans. Qed.
Lemma sorted_app_le {A} (R : A -> A -> Prop) l1 a l2 b l3 : StronglySorted R (l1 ++ a :: l2 ++ b :: l3) -> R a b.
Proof.
  intros H. apply StronglySorted_app in H. destruct H as (_ & H & _). inversion H as [|? ? _ Hf]; subst. rewrite Forall_forall in Hf.
  apply Hf. apply in_or_app. right. left. reflexivity.
Qed.

Section Picture.
  Variables (eps : Z) (ds : list detection) (L : list String.string) (G P : nat -> nat -> Z).

  (* the row is about ground truth [g] / about label [v] with score [sc] of prediction [p] *)
  Definition gt_row (i g : nat) (r : drow) : Prop :=
    exists d ga gl gi, nth_error ds i = Some d /\ nth_error (t_gts d) g = Some ga /\ a_labels ga = [gl] /\ index_of gl L = Some gi /\
      d_uid r = t_uid d /\ d_datum r = Z.of_nat i /\ d_gt_uid r = Some (a_uid ga) /\ d_gt r = G i g /\ d_gl r = Z.of_nat gi.
  Definition pd_row (i p : nat) (v : String.string) (sc : Z) (r : drow) : Prop :=
    exists d pa pi, nth_error ds i = Some d /\ nth_error (t_pds d) p = Some pa /\ In (v, sc) (scored_labels pa) /\ index_of v L = Some pi /\
      d_uid r = t_uid d /\ d_datum r = Z.of_nat i /\ d_pd_uid r = Some (a_uid pa) /\ d_pd r = P i p /\ d_pl r = Z.of_nat pi /\ d_score r = sc.

  (* the rows show exactly the images [on] *)
  Record pictured (on : nat -> bool) (T : list drow) : Prop := {
    pic_rows : forall r, In r T ->
      (exists i d g p v sc, on i = true /\ nth_error ds i = Some d /\ gt_row i g r /\ pd_row i p v sc r /\ (eps <= t_iou d p g)%Z /\ d_iou r = t_iou d p g) \/
      (exists i g, on i = true /\ gt_row i g r /\ lacks_pd r) \/
      (exists i p v sc, on i = true /\ pd_row i p v sc r /\ lacks_gt r);
    pic_gt : forall i d g, on i = true -> nth_error ds i = Some d -> g < length (t_gts d) -> exists r, In r T /\ gt_row i g r;
    pic_pd : forall i d p pa v sc, on i = true -> nth_error ds i = Some d -> nth_error (t_pds d) p = Some pa -> In (v, sc) (scored_labels pa) ->
      exists r, In r T /\ pd_row i p v sc r;
    pic_pair : forall i d g p pa v sc, on i = true -> nth_error ds i = Some d -> g < length (t_gts d) -> nth_error (t_pds d) p = Some pa ->
      In (v, sc) (scored_labels pa) -> (eps <= t_iou d p g)%Z -> exists r, In r T /\ gt_row i g r /\ pd_row i p v sc r;
    pic_order : forall i, on i = true -> StronglySorted row_le (pairs_of i T)
  }.

  (* ids increase with the position *)
  Record ids_increase : Prop := {
    inc_datum : forall i, i < length ds -> id_ok (Z.of_nat i);
    inc_gt : forall i d g, nth_error ds i = Some d -> g < length (t_gts d) -> id_ok (G i g);
    inc_pd : forall i d p, nth_error ds i = Some d -> p < length (t_pds d) -> id_ok (P i p);
    inc_gt_lt : forall i d g j e h, nth_error ds i = Some d -> g < length (t_gts d) -> nth_error ds j = Some e -> h < length (t_gts e) ->
      i < j \/ (i = j /\ g < h) -> (G i g < G j h)%Z;
    inc_pd_lt : forall i d p j e q, nth_error ds i = Some d -> p < length (t_pds d) -> nth_error ds j = Some e -> q < length (t_pds e) ->
      i < j \/ (i = j /\ p < q) -> (P i p < P j q)%Z
  }.

  Hypothesis Hid : ids_increase.
  Hypothesis Hdis : Forall distinct_pd_labels ds.
  Variables (on : nat -> bool) (tb : list drow).
  Hypothesis Hpic : pictured on tb.

  Lemma scored_label pa v sc : In (v, sc) (scored_labels pa) -> In v (a_labels pa) /\ In sc (a_scores pa).
  Proof. unfold scored_labels. intros H. split; [eapply in_combine_l|eapply in_combine_r]; eauto. Qed.
  Lemma one_score d pa v sc sc' : In d ds -> In pa (t_pds d) -> In (v, sc) (scored_labels pa) -> In (v, sc') (scored_labels pa) -> sc = sc'.
  Proof.
    intros Hd Hp H H'. assert (N : NoDup (a_labels pa)). { assert (X := proj1 (Forall_forall _ _) Hdis d Hd). apply X. exact Hp. }
    unfold scored_labels in *. revert N H H'. generalize (a_labels pa), (a_scores pa).
    induction l as [|x l IH]; intros m N H H'; [destruct H|]. destruct m as [|y m]; [destruct H|]. inversion N; subst. cbn in H, H'.
    destruct H as [E|H], H' as [E'|H']; [congruence| | |apply (IH m); assumption].
    - injection E as <- <-. apply in_combine_l in H'. contradiction.
    - injection E' as <- <-. apply in_combine_l in H. contradiction.
  Qed.

  (* ------------------------------------------------------------------ rows *)
  Lemma gt_row_in i g r : gt_row i g r -> exists d, nth_error ds i = Some d /\ g < length (t_gts d) /\ d_gt r = G i g /\ d_datum r = Z.of_nat i.
  Proof. intros (d & ga & gl & gi & A & B & _ & _ & _ & E & _ & F & _). exists d. split; [exact A|]. split; [apply nth_error_Some; congruence|auto]. Qed.
  Lemma pd_row_in i p v sc r : pd_row i p v sc r -> exists d, nth_error ds i = Some d /\ p < length (t_pds d) /\ d_pd r = P i p /\ d_datum r = Z.of_nat i.
  Proof. intros (d & pa & pi & A & B & _ & _ & _ & E & _ & F & _). exists d. split; [exact A|]. split; [apply nth_error_Some; congruence|auto]. Qed.
  Lemma gt_row_ok i g r : gt_row i g r -> id_ok (d_gt r).
  Proof. intros H. destruct (gt_row_in _ _ _ H) as (d & A & B & -> & _). apply (inc_gt Hid i d g A B). Qed.
  Lemma pd_row_ok i p v sc r : pd_row i p v sc r -> id_ok (d_pd r).
  Proof. intros H. destruct (pd_row_in _ _ _ _ _ H) as (d & A & B & -> & _). apply (inc_pd Hid i d p A B). Qed.
  Lemma gt_row_id i g j h r r' : gt_row i g r -> gt_row j h r' -> d_gt r = d_gt r' -> i = j /\ g = h.
  Proof.
    intros A B E. destruct (gt_row_in _ _ _ A) as (d & D1 & D2 & D3 & _), (gt_row_in _ _ _ B) as (e & E1 & E2 & E3 & _).
    assert (X := inc_gt_lt Hid i d g j e h D1 D2 E1 E2). assert (Y := inc_gt_lt Hid j e h i d g E1 E2 D1 D2). lia.
  Qed.
  Lemma pd_row_id i p j q v w sc sw r r' : pd_row i p v sc r -> pd_row j q w sw r' -> d_pd r = d_pd r' -> i = j /\ p = q.
  Proof.
    intros A B E. destruct (pd_row_in _ _ _ _ _ A) as (d & D1 & D2 & D3 & _), (pd_row_in _ _ _ _ _ B) as (e & E1 & E2 & E3 & _).
    assert (X := inc_pd_lt Hid i d p j e q D1 D2 E1 E2). assert (Y := inc_pd_lt Hid j e q i d p E1 E2 D1 D2). lia.
  Qed.
  Lemma pd_row_label i p j q v w sc sw r r' : pd_row i p v sc r -> pd_row j q w sw r' -> d_pl r = d_pl r' -> v = w.
  Proof.
    intros (d & pa & pi & _ & _ & _ & A & _ & _ & _ & _ & E & _) (d' & pa' & pi' & _ & _ & _ & A' & _ & _ & _ & _ & E' & _) X.
    apply (index_of_inj v w L pi); [exact A|]. replace pi with pi' by lia. exact A'.
  Qed.
  Lemma pd_row_score i p v sc sw r r' : pd_row i p v sc r -> pd_row i p v sw r' -> sc = sw.
  Proof.
    intros (d & pa & pi & A & B & C & _) (d' & pa' & pi' & A' & B' & C' & _). assert (d' = d) by congruence. subst d'.
    assert (pa' = pa) by congruence. subst pa'. apply (one_score d pa v); [apply (nth_error_In _ _ A)|apply (nth_error_In _ _ B)|exact C|exact C'].
  Qed.
  Lemma gt_row_label i g r d ga gl : gt_row i g r -> nth_error ds i = Some d -> nth_error (t_gts d) g = Some ga -> a_labels ga = [gl] ->
    index_of gl L = Some (Z.to_nat (d_gl r)) /\ (0 <= d_gl r)%Z.
  Proof.
    intros (d' & ga' & gl' & gi & A & B & C & D & _ & _ & _ & _ & E) A' B' C'. assert (d' = d) by congruence. subst d'.
    assert (ga' = ga) by congruence. subst ga'. assert (gl' = gl) by congruence. subst gl'. rewrite E, Nat2Z.id. split; [exact D|lia].
  Qed.

  Lemma row_gt r : In r tb -> (0 <= d_gt r)%Z -> exists i g, on i = true /\ gt_row i g r.
  Proof.
    intros Hr H. destruct (pic_rows _ _ Hpic r Hr) as [(i & d & g & p & v & sc & A & _ & B & _)|[(i & g & A & B & _)|(i & p & v & sc & _ & _ & [B _])]]; eauto. lia.
  Qed.
  Lemma row_pd r : In r tb -> (0 <= d_pd r)%Z -> exists i p v sc, on i = true /\ pd_row i p v sc r.
  Proof.
    intros Hr H. destruct (pic_rows _ _ Hpic r Hr) as [(i & d & g & p & v & sc & A & _ & _ & B & _)|[(i & g & _ & _ & [B _])|(i & p & v & sc & A & B & _)]]; eauto 6. lia.
  Qed.
  Lemma row_pair r i g p v sc : In r tb -> gt_row i g r -> pd_row i p v sc r ->
    exists d, on i = true /\ nth_error ds i = Some d /\ (eps <= t_iou d p g)%Z /\ d_iou r = t_iou d p g.
  Proof.
    intros Hr A B. destruct (pic_rows _ _ Hpic r Hr) as [(i' & d & g' & p' & v' & sc' & O & D & A' & B' & H1 & H2)|[(i' & g' & _ & _ & [X _])|(i' & p' & v' & sc' & _ & _ & [X _])]].
    - destruct (gt_row_id _ _ _ _ _ _ A A' eq_refl) as [<- <-]. destruct (pd_row_id _ _ _ _ _ _ _ _ _ _ B B' eq_refl) as [_ <-]. exists d. auto.
    - assert (Y := pd_row_ok _ _ _ _ _ B). unfold id_ok in Y. lia.
    - assert (Y := gt_row_ok _ _ _ A). unfold id_ok in Y. lia.
  Qed.
  Lemma row_both r : In r tb -> (0 <= d_gt r)%Z -> (0 <= d_pd r)%Z ->
    exists i d g p v sc, on i = true /\ nth_error ds i = Some d /\ gt_row i g r /\ pd_row i p v sc r /\ (eps <= t_iou d p g)%Z /\ d_iou r = t_iou d p g.
  Proof.
    intros Hr H1 H2. destruct (pic_rows _ _ Hpic r Hr) as [H|[(i' & g' & _ & _ & [X _])|(i' & p' & v' & sc' & _ & _ & [X _])]]; [exact H|lia|lia].
  Qed.
  Lemma row_datum r : In r tb -> exists i d, on i = true /\ nth_error ds i = Some d /\ d_datum r = Z.of_nat i /\ d_uid r = t_uid d.
  Proof.
    intros Hr. destruct (pic_rows _ _ Hpic r Hr) as [(i & d & g & p & v & sc & O & D & (d' & ga & gl & gi & A & _ & _ & _ & B & C & _) & _)|
      [(i & g & O & (d' & ga & gl & gi & A & _ & _ & _ & B & C & _) & _)|(i & p & v & sc & O & (d' & pa & pi & A & _ & _ & _ & B & C & _) & _)]]; exists i, d'; auto.
  Qed.

  Lemma pic_conf_ok : conf_ok tb.
  Proof.
    constructor.
    - intros r Hr. split; [|split].
      + destruct (row_datum r Hr) as (i & d & _ & Hi & -> & _). apply (inc_datum Hid). apply nth_error_Some. congruence.
      + destruct (pic_rows _ _ Hpic r Hr) as [(i & d & g & p & v & sc & _ & _ & A & _)|[(i & g & _ & A & _)|(i & p & v & sc & _ & _ & [A _])]];
        try (apply gt_row_ok in A; unfold id_ok in A); unfold id_or_absent; lia.
      + destruct (pic_rows _ _ Hpic r Hr) as [(i & d & g & p & v & sc & _ & _ & _ & A & _)|[(i & g & _ & _ & [A _])|(i & p & v & sc & _ & A & _)]];
        try (apply pd_row_ok in A; unfold id_ok in A); unfold id_or_absent; lia.
    - intros a b Ha Hb H E. destruct (row_gt a Ha H) as (i & g & _ & A), (row_gt b Hb ltac:(lia)) as (j & h & _ & B).
      destruct (gt_row_id _ _ _ _ _ _ A B E) as [<- <-]. destruct A as (d & ga & gl & gi & A1 & A2 & A3 & A4 & A5 & A6 & A7 & A8 & A9).
      destruct B as (d' & ga' & gl' & gi' & B1 & B2 & B3 & B4 & B5 & B6 & B7 & B8 & B9).
      assert (d' = d) by congruence. subst d'. assert (ga' = ga) by congruence. subst ga'. assert (gl' = gl) by congruence. subst gl'.
      assert (gi' = gi) by congruence. split; congruence.
    - intros a b Ha Hb H E. destruct (row_pd a Ha H) as (i & p & v & sc & _ & A), (row_pd b Hb ltac:(lia)) as (j & q & w & sw & _ & B).
      destruct (pd_row_id _ _ _ _ _ _ _ _ _ _ A B E) as [<- <-]. destruct (pd_row_in _ _ _ _ _ A) as (_ & _ & _ & _ & ->). destruct (pd_row_in _ _ _ _ _ B) as (_ & _ & _ & _ & ->). reflexivity.
    - intros a b Ha Hb H E El. destruct (row_pd a Ha H) as (i & p & v & sc & _ & A), (row_pd b Hb ltac:(lia)) as (j & q & w & sw & _ & B).
      destruct (pd_row_id _ _ _ _ _ _ _ _ _ _ A B E) as [<- <-]. assert (v = w) by apply (pd_row_label _ _ _ _ _ _ _ _ _ _ A B El). subst w.
      assert (X := pd_row_score _ _ _ _ _ _ _ A B). destruct A as (_ & _ & _ & _ & _ & _ & _ & _ & _ & _ & _ & _ & ->). destruct B as (_ & _ & _ & _ & _ & _ & _ & _ & _ & _ & _ & _ & ->). exact X.
    - intros a b Ha Hb H1 H2 E1 E2. destruct (row_both a Ha H1 H2) as (i & d & g & p & v & sc & _ & D & A & B & _ & ->).
      destruct (row_both b Hb ltac:(lia) ltac:(lia)) as (j & e & h & q & w & sw & _ & D' & A' & B' & _ & ->).
      destruct (gt_row_id _ _ _ _ _ _ A A' E1) as [<- <-]. destruct (pd_row_id _ _ _ _ _ _ _ _ _ _ B B' E2) as [_ <-]. congruence.
    - intros a b Ha Hb H1 H2 E. destruct (row_both a Ha H1 H2) as (i & d & g & p & v & sc & O & D & A & B & Ho & Io).
      destruct (row_pd b Hb ltac:(lia)) as (j & q & w & sw & _ & B'). destruct (pd_row_id _ _ _ _ _ _ _ _ _ _ B B' E) as [<- <-].
      assert (B0 := B'). destruct B0 as (e & pa & pi & C1 & C2 & C3 & C4 & C5 & C6 & C7 & C8 & C9 & C10). assert (e = d) by congruence. subst e.
      destruct (gt_row_in _ _ _ A) as (e & F1 & F2 & F3 & F4). assert (e = d) by congruence. subst e.
      destruct (pic_pair _ _ Hpic i d g p pa w sw O D F2 C2 C3 Ho) as (c & Hc & Gc & Pc). exists c. split; [exact Hc|].
      destruct (row_pair c i g p w sw Hc Gc Pc) as (e & _ & De & _ & Ic). assert (e = d) by congruence. subst e.
      destruct A as (e & ga & gl & gi & A1 & A2 & A3 & A4 & A5 & A6 & A7 & A8 & A9). destruct Gc as (e' & ga' & gl' & gi' & K1 & K2 & K3 & K4 & K5 & K6 & K7 & K8 & K9).
      assert (e = d) by congruence. subst e. assert (e' = d) by congruence. subst e'. assert (ga' = ga) by congruence. subst ga'.
      assert (gl' = gl) by congruence. subst gl'. assert (gi' = gi) by congruence. subst gi'.
      destruct Pc as (e & pa' & pi' & M1 & M2 & M3 & M4 & M5 & M6 & M7 & M8 & M9 & M10). assert (pi' = pi) by congruence. subst pi'.
      split; [congruence|]. split; [congruence|]. split; [congruence|]. split; [congruence|]. split; [congruence|]. split; congruence.
  Qed.

  (* -------------------------------------------------------------- matching *)
  Definition chosen_pairs : list (Z * Z) := greedy [] [] (map pair_ids tb).
  Definition code_choice (i : nat) (d : detection) (p g : nat) : bool :=
    Nat.ltb p (length (t_pds d)) && Nat.ltb g (length (t_gts d)) && existsb (fun x => (fst x =? G i g)%Z && (snd x =? P i p)%Z) chosen_pairs.
  Lemma code_choice_iff i d p g : code_choice i d p g = true <-> p < length (t_pds d) /\ g < length (t_gts d) /\ In (G i g, P i p) chosen_pairs.
  Proof.
    unfold code_choice. rewrite !andb_true_iff, !Nat.ltb_lt, existsb_exists. split.
    - intros [[A B] ([a b] & H & E)]. cbn in E. rewrite andb_true_iff, !Z.eqb_eq in E. destruct E as [-> ->]. auto.
    - intros (A & B & H). split; [auto|]. exists (G i g, P i p). split; [exact H|]. cbn. rewrite !Z.eqb_refl. reflexivity.
  Qed.
  Lemma chosen_row i d p g : nth_error ds i = Some d -> p < length (t_pds d) -> g < length (t_gts d) -> In (G i g, P i p) chosen_pairs ->
    exists r v sc, In r tb /\ gt_row i g r /\ pd_row i p v sc r.
  Proof.
    intros Hi Hp Hg H. apply greedy_In in H. destruct H as (H & _). apply in_map_iff in H. destruct H as (r & E & Hr). unfold pair_ids in E. injection E as E1 E2.
    assert (X := inc_gt Hid i d g Hi Hg). assert (Y := inc_pd Hid i d p Hi Hp). unfold id_ok in *.
    destruct (row_both r Hr ltac:(lia) ltac:(lia)) as (j & e & h & q & v & sc & O & D & A & B & _).
    destruct (gt_row_in _ _ _ A) as (e1 & A1 & A2 & A3 & _). destruct (pd_row_in _ _ _ _ _ B) as (e2 & B1 & B2 & B3 & _).
    assert (e1 = e) by congruence. subst e1. assert (e2 = e) by congruence. subst e2.
    assert (X1 := inc_gt_lt Hid i d g j e h Hi Hg D A2). assert (X2 := inc_gt_lt Hid j e h i d g D A2 Hi Hg).
    assert (Y1 := inc_pd_lt Hid i d p j e q Hi Hp D B2). assert (Y2 := inc_pd_lt Hid j e q i d p D B2 Hi Hp).
    assert (i = j) by lia. assert (g = h) by lia. assert (p = q) by lia. subst. exists r, v, sc. auto.
  Qed.
  Lemma pair_in_order i l1 a l2 b l3 : on i = true -> tb = l1 ++ a :: l2 ++ b :: l3 ->
    is_pair a = true -> is_pair b = true -> d_datum a = Z.of_nat i -> d_datum b = Z.of_nat i -> row_le a b.
  Proof.
    intros O E Ha Hb Da Db. assert (S := pic_order _ _ Hpic i O). unfold pairs_of in S. rewrite E in S.
    rewrite filter_app in S. cbn [filter] in S. rewrite Ha, Da, Z.eqb_refl in S. cbn [andb] in S. rewrite filter_app in S. cbn [filter] in S.
    rewrite Hb, Db, Z.eqb_refl in S. cbn [andb] in S. apply sorted_app_le in S. exact S.
  Qed.
  Lemma pair_row_pair i g p v sc r : gt_row i g r -> pd_row i p v sc r -> is_pair r = true /\ d_datum r = Z.of_nat i.
  Proof.
    intros A B. assert (X := gt_row_ok _ _ _ A). assert (Y := pd_row_ok _ _ _ _ _ B). destruct (gt_row_in _ _ _ A) as (_ & _ & _ & _ & E).
    split; [|exact E]. unfold is_pair, id_ok in *. rewrite andb_true_iff, !Z.leb_le. lia.
  Qed.

  Hypothesis Hlen : forall d pa, In d ds -> In pa (t_pds d) -> length (a_labels pa) = length (a_scores pa).
  Lemma scored_of d pa sc : In d ds -> In pa (t_pds d) -> In sc (a_scores pa) -> exists v, In (v, sc) (scored_labels pa).
  Proof.
    intros Hd Hp H. specialize (Hlen d pa Hd Hp). unfold scored_labels. revert Hlen H. generalize (a_labels pa), (a_scores pa).
    induction l as [|x l IH]; intros [|y m] E H; try discriminate; [destruct H|]. cbn in *. destruct H as [->|H]; [exists x; auto|].
    destruct (IH m ltac:(lia) H) as (v & Hv). exists v. auto.
  Qed.

  Lemma choice_in_turn i d : on i = true -> nth_error ds i = Some d -> in_turn eps d (code_choice i d).
  Proof.
    intros O Hi. assert (Hd : In d ds) by (apply (nth_error_In _ _ Hi)). constructor.
    - intros p g H. apply code_choice_iff in H. destruct H as (Hp & Hg & H). destruct (chosen_row i d p g Hi Hp Hg H) as (r & v & sc & Hr & A & B).
      destruct (row_pair r i g p v sc Hr A B) as (e & _ & D & Ho & _). assert (e = d) by congruence. subst e. apply candidate_iff.
      destruct B as (e & pa & pi & B1 & B2 & B3 & _). assert (e = d) by congruence. subst e. exists pa. split; [exact B2|]. split; [|auto].
      apply scored_label in B3. intros E. rewrite E in B3. destruct B3 as [_ []].
    - intros p g g' H H'. apply code_choice_iff in H, H'. destruct H as (Hp & Hg & H), H' as (_ & Hg' & H').
      destruct (greedy_NoDup [] [] (map pair_ids tb)) as [_ N]. assert (E := NoDup_map_inj snd _ _ _ N H H' eq_refl). injection E as E.
      assert (X1 := inc_gt_lt Hid i d g i d g' Hi Hg Hi Hg'). assert (X2 := inc_gt_lt Hid i d g' i d g Hi Hg' Hi Hg). lia.
    - intros p p' g H H'. apply code_choice_iff in H, H'. destruct H as (Hp & Hg & H), H' as (Hp' & _ & H').
      destruct (greedy_NoDup [] [] (map pair_ids tb)) as [N _]. assert (E := NoDup_map_inj fst _ _ _ N H H' eq_refl). injection E as E.
      assert (X1 := inc_pd_lt Hid i d p i d p' Hi Hp Hi Hp'). assert (X2 := inc_pd_lt Hid i d p' i d p Hi Hp' Hi Hp). lia.
    - intros p g H. apply candidate_iff in H. destruct H as (pa & Hp & Hne & Hg & Ho).
      assert (Hp' : p < length (t_pds d)) by (apply nth_error_Some; congruence).
      destruct (scored_of d pa (top_score pa) Hd (nth_error_In _ _ Hp) (top_score_In pa Hne)) as (v & Hv).
      destruct (pic_pair _ _ Hpic i d g p pa v (top_score pa) O Hi Hg Hp Hv Ho) as (r & Hr & A & B).
      destruct (gt_row_in _ _ _ A) as (_ & _ & _ & A3 & _). destruct (pd_row_in _ _ _ _ _ B) as (_ & _ & _ & B3 & _).
      assert (Hx : In (G i g, P i p) (map pair_ids tb)). { apply in_map_iff. exists r. split; [unfold pair_ids; congruence|exact Hr]. }
      destruct (first_occurrence _ _ Hx) as (l1 & l2 & El & Nl).
      destruct (map_split pair_ids tb l1 _ l2 El) as (m1 & r0 & m2 & Em & Em1 & Er0 & _).
      assert (R0 : In r0 tb) by (rewrite Em; apply in_or_app; right; left; reflexivity).
      unfold pair_ids in Er0. injection Er0 as E1 E2.
      destruct (row_pair r i g p v _ Hr A B) as (e & _ & De & _ & Ir). assert (e = d) by congruence. subst e.
      assert (Sr : d_score r = top_score pa) by (destruct B as (_ & _ & _ & _ & _ & _ & _ & _ & _ & _ & _ & _ & S); exact S).
      destruct (pair_row_pair _ _ _ _ _ _ A B) as [Pr Dr].
      assert (Pr0 : is_pair r0 = true /\ d_datum r0 = Z.of_nat i).
      { unfold is_pair in *. rewrite E1, E2, <- A3, <- B3. split; [exact Pr|].
        unfold is_pair in Pr. rewrite andb_true_iff, !Z.leb_le in Pr. rewrite <- Dr. apply (co_pds _ pic_conf_ok); auto; lia. }
      destruct Pr0 as [Pr0 Dr0].
      assert (Before : row_le r0 r \/ r0 = r).
      { assert (Hr' := Hr). rewrite Em in Hr'. apply in_app_or in Hr'. destruct Hr' as [Hr'|[Hr'|Hr']]; [|auto|].
        - exfalso. apply Nl. rewrite <- Em1. apply in_map_iff. exists r. split; [unfold pair_ids; congruence|exact Hr'].
        - apply in_split in Hr'. destruct Hr' as (x & y & E). left. apply (pair_in_order i m1 r0 x r y); auto. rewrite Em, E. reflexivity. }
      assert (VG := inc_gt Hid i d g Hi Hg). assert (VP := inc_pd Hid i d p Hi Hp').
      destruct (greedy_blocked l1 (G i g, P i p) l2) as [Hs|(y & Hy & Hc)]; [unfold valid_pair, id_ok in *; cbn; lia| |].
      + left. apply code_choice_iff. unfold chosen_pairs. rewrite El. auto.
      + right. assert (Hyc : In y chosen_pairs) by (unfold chosen_pairs; rewrite El; apply greedy_prefix; exact Hy).
        apply greedy_In in Hy. destruct Hy as (Hyl & [V1 V2] & _). assert (Hyl' := Hyl). rewrite <- Em1 in Hyl. apply in_map_iff in Hyl. destruct Hyl as (q & Eq & Hq).
        assert (Hqt : In q tb) by (rewrite Em; apply in_or_app; left; exact Hq). subst y. cbn [fst snd pair_ids] in V1, V2.
        destruct (row_both q Hqt V1 V2) as (j & e & g' & p' & v' & sc' & Oj & Dj & A' & B' & Ho' & Iq).
        destruct (gt_row_in _ _ _ A') as (e1 & F1 & F2 & F3 & F4). assert (e1 = e) by congruence. subst e1.
        destruct (pd_row_in _ _ _ _ _ B') as (e2 & H1 & H2 & H3 & H4). assert (e2 = e) by congruence. subst e2.
        assert (Ej : j = i /\ (p' = p \/ g' = g)).
        { unfold conflict, pair_ids in Hc. cbn [fst snd] in Hc. destruct Hc as [Hc|Hc].
          - destruct (gt_row_id _ _ _ _ _ _ A A' ltac:(congruence)) as [-> ->]. auto.
          - destruct (pd_row_id _ _ _ _ _ _ _ _ _ _ B B' ltac:(congruence)) as [-> ->]. auto. }
        destruct Ej as [-> Ej]. assert (e = d) by congruence. subst e.
        exists p', g'. split; [|split; [exact Ej|]].
        * apply code_choice_iff. split; [exact H2|]. split; [exact F2|]. unfold pair_ids in Hyc. rewrite F3, H3 in Hyc. exact Hyc.
        * assert (Ne : (p', g') <> (p, g)). { intros E. injection E as -> ->. apply Nl. unfold pair_ids in Hyl'. rewrite F3, H3 in Hyl'. exact Hyl'. }
          split; [|exact Ne].
          destruct (pair_row_pair _ _ _ _ _ _ A' B') as [Pq Dq].
          assert (Hqr0 : row_le q r0).
          { apply in_split in Hq. destruct Hq as (x & z & ->). rewrite <- app_assoc in Em. cbn [app] in Em. apply (pair_in_order i x q z r0 m2); auto. }
          assert (Hqr : row_le q r) by (destruct Before as [Hb|<-]; [apply (row_le_trans _ r0); assumption|exact Hqr0]).
          destruct B' as (e & pa' & pi' & K1 & K2 & K3 & K4 & K5 & K6 & K7 & K8 & K9 & K10). assert (e = d) by congruence. subst e.
          apply scored_label in K3. assert (T := top_score_ge pa' sc' (proj2 K3)).
          apply row_le_iff in Hqr. unfold turn_leb, turn. apply lex4. cbn [fst snd]. unfold best_score. rewrite Hp, K2.
          rewrite Iq, Ir, Sr, K10, F3, K8, A3, B3 in Hqr.
          assert (X2 := inc_gt_lt Hid i d g i d g' Hi Hg Hi F2). assert (X3 := inc_pd_lt Hid i d p i d p' Hi Hp' Hi H2).
          assert (X4 := inc_gt_lt Hid i d g' i d g Hi F2 Hi Hg). clear - Hqr T X2 X3 X4.
          destruct (Nat.eq_dec g g') as [<-|], (Nat.eq_dec p p') as [<-|]; lia.
  Qed.

  Theorem choice_is_matching i d p g : on i = true -> nth_error ds i = Some d -> p < length (t_pds d) -> g < length (t_gts d) ->
    (In (G i g, P i p) chosen_pairs <-> matching eps d p g = true).
  Proof.
    intros O Hi Hp Hg. rewrite (in_turn_unique eps d (matching eps d) (code_choice i d) (matching_in_turn eps d) (choice_in_turn i d O Hi)), code_choice_iff. tauto.
  Qed.
End Picture.
